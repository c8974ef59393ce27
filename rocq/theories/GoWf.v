(** The definitions read from a source text contain only names and numbers, and a supported
    specification is emitted. *)
From Verif Require Import GoLex GLexP XLex Gram GParse GParseP Emit GEmitP GoAst Bytes XdrLib Types Interp GoSem GElab GLexQ GoCst GoCstP GoText GoTop GoRes GoPkg.
Open Scope string_scope.
Open Scope list_scope.

(** ** Tokens *)
Definition gtok_ok (t : gtok) : Prop :=
  match t with GIdent w => is_word w = true /\ mem w keywords = false | GInt s => is_int s = true | _ => True end.
Lemma span_again p s : span p (fst (span p s)) = (fst (span p s), "").
Proof.
  destruct (span_split p s) as [_ H]. revert H. generalize (fst (span p s)). intros w H. pose proof (span_all p w "" H I) as Q. rewrite sapp_nil in Q. exact Q.
Qed.
Lemma int_part_again c s a r digs : is_digit c = true -> int_part (String c s) = (a, r, digs) -> int_part a = (a, "", digs) /\ head_is is_digit a = true.
Proof.
  intros Hc H. destruct (Ascii.eqb_spec c "0") as [->|N].
  - cbn [int_part] in H. destruct (head_is (fun c => lchr "x" c) s) eqn:Ex.
    { destruct s as [|x s]; [discriminate|]. cbn [take1 head_is] in *. pose proof (span_again is_hex_sep s) as Q. destruct (span is_hex_sep s) as [d r1]. cbn [fst] in Q. injection H as <- <- <-.
      split; [|reflexivity]. cbn [String.append int_part head_is take1]. rewrite Ex, Q. reflexivity. }
    destruct (head_is (fun c => lchr "o" c || lchr "b" c) s) eqn:Eo.
    { destruct s as [|x s]; [discriminate|]. cbn [take1 head_is] in *. pose proof (span_again is_dec_sep s) as Q. destruct (span is_dec_sep s) as [d r1]. cbn [fst] in Q. injection H as <- <- <-.
      split; [|reflexivity]. cbn [String.append int_part head_is take1]. rewrite Ex, Eo, Q. reflexivity. }
    pose proof (span_again is_dec_sep s) as Q. pose proof (span_split is_dec_sep s) as [S1 S2]. destruct (span is_dec_sep s) as [d r1]. cbn [fst snd] in *. injection H as <- <- <-.
    split; [|reflexivity]. cbn [String.append int_part]. assert (head_is (fun c => lchr "x" c) d = false) as ->. { destruct d as [|x d]; [reflexivity|]. rewrite S1 in Ex. exact Ex. }
    assert (head_is (fun c => lchr "o" c || lchr "b" c) d = false) as ->. { destruct d as [|x d]; [reflexivity|]. rewrite S1 in Eo. exact Eo. }
    rewrite Q. reflexivity.
  - rewrite int_part_other in H by exact N. pose proof (span_again is_dec_sep (String c s)) as Q.
    assert (exists d, fst (span is_dec_sep (String c s)) = String c d) as (d & Ed). { cbn [span]. unfold is_dec_sep at 1. rewrite Hc. cbn [orb]. destruct (span is_dec_sep s). eexists. reflexivity. }
    rewrite Ed in Q. destruct (span is_dec_sep (String c s)) as [w r1]. cbn [fst] in Ed. subst w. injection H as <- <- <-. rewrite int_part_other by exact N. rewrite Q. split; [reflexivity|exact Hc].
Qed.
Lemma scan_int c s t r : is_digit c || (Ascii.eqb c "." && head_is is_digit s) = true -> scan_number (String c s) = (GInt t, r) -> is_int t = true.
Proof.
  intros Hc H. rewrite scan_number_eq in H. destruct (is_digit c) eqn:Ed.
  - destruct (int_part (String c s)) as [[a r0] digs] eqn:Ei. destruct (int_part_again _ _ _ _ _ Ed Ei) as [A B].
    unfold opt_part at 1 in H. destruct (head_is (chr ".") r0).
    { destruct (frac_part digs r0) as [b r1]. destruct (opt_part (fun c => lchr "e" c || lchr "p" c) exp_part r1) as [[ex c'] r2]. destruct (opt_part (chr "i") take1 r2) as [[im e] r3]. destruct im; discriminate H. }
    unfold opt_part at 1 in H. destruct (head_is (fun c => lchr "e" c || lchr "p" c) r0).
    { destruct (exp_part r0) as [b r1]. destruct (opt_part (chr "i") take1 r1) as [[im e] r3]. destruct im; discriminate H. }
    unfold opt_part in H. destruct (head_is (chr "i") r0).
    { destruct (take1 r0) as [b r1]. discriminate H. }
    injection H as <- <-. cbn [String.append]. rewrite sapp_nil. unfold is_int. rewrite B. rewrite scan_number_eq, A. cbn [opt_part head_is String.append]. rewrite sapp_nil. cbn [orb andb]. rewrite String.eqb_refl. reflexivity.
  - cbn [orb] in Hc. apply andb_true_iff in Hc. destruct Hc as [Hc _]. apply Ascii.eqb_eq in Hc. subst c.
    change (int_part (String "." s)) with (""%string, String "." s, is_dec_sep) in H. cbn beta iota in H. change (opt_part (chr ".") (frac_part is_dec_sep) (String "." s)) with (let '(a, r) := frac_part is_dec_sep (String "." s) in (true, a, r)) in H.
    destruct (frac_part is_dec_sep (String "." s)) as [b r1]. destruct (opt_part (fun c => lchr "e" c || lchr "p" c) exp_part r1) as [[ex c'] r2]. destruct (opt_part (chr "i") take1 r2) as [[im e] r3]. destruct im; discriminate H.
Qed.
Lemma lex_ok : forall n semi s ts, lex n semi s = Some ts -> Forall gtok_ok ts.
Proof.
  assert (Q : forall t o ts, gtok_ok t -> (forall l, o = Some l -> Forall gtok_ok l) -> option_map (cons t) o = Some ts -> Forall gtok_ok ts).
  { intros t o ts T H E. destruct o as [l|]; [|discriminate]. injection E as <-. constructor; [exact T|]. apply H. reflexivity. }
  induction n as [|n IH]; intros semi s ts H; [discriminate|]. destruct s as [|c s]; [cbn in H; injection H as <-; destruct semi; repeat constructor|].
  rewrite lex_S in H. cbv zeta in H.
  destruct (is_blank c); [eapply IH; exact H|]. destruct (Ascii.eqb c nl). { destruct semi; [|eapply IH; exact H]. revert H. apply Q; [exact I|]. intros l; apply IH. }
  destruct (is_letter c) eqn:El.
  { pose proof (span_split is_idchar (String c s)) as [_ S2]. assert (exists d, fst (span is_idchar (String c s)) = String c d) as (d & Ed). { cbn [span]. unfold is_idchar at 1. rewrite El. cbn [orb]. destruct (span is_idchar s). eexists. reflexivity. }
    destruct (span is_idchar (String c s)) as [w r']. cbn [fst] in *. subst w. revert H. apply Q; [|intros l; apply IH].
    unfold lookup_word. destruct (mem (String c d) keywords) eqn:Ek; cbn; [exact I|]. split; [|exact Ek]. cbn in S2. apply andb_true_iff in S2. destruct S2 as [_ ->]. rewrite El. reflexivity. }
  destruct (is_digit c || (Ascii.eqb c "." && head_is is_digit s)) eqn:Ed.
  { destruct (scan_number (String c s)) as [t r'] eqn:Es. revert H. apply Q; [|intros l; apply IH]. destruct t; try exact I; [|cbn; eapply scan_int; eassumption].
    exfalso. clear -Es. rewrite scan_number_eq in Es. repeat match type of Es with context [let '(_, _) := ?x in _] => destruct x end. repeat match type of Es with context [if ?x then _ else _] => destruct x end; discriminate Es. }
  destruct (Ascii.eqb c "/" && head_is (chr "/") s); [eapply IH; exact H|]. destruct (Ascii.eqb c "/" && head_is (chr "*") s).
  { destruct (block_comment _) as [b r']. destruct (semi && b); [|eapply IH; exact H]. revert H. apply Q; [exact I|]. intros l; apply IH. }
  destruct (Ascii.eqb c dquote). { destruct (quoted dquote s) as [w r']. revert H. apply Q; [exact I|]. intros l; apply IH. }
  destruct (Ascii.eqb c "'"). { destruct (quoted "'" s) as [w r']. revert H. apply Q; [exact I|]. intros l; apply IH. }
  destruct (Ascii.eqb c "`"). { destruct (raw_quoted s) as [w r']. revert H. apply Q; [exact I|]. intros l; apply IH. }
  destruct (Ascii.eqb c ";"). { revert H. apply Q; [exact I|]. intros l; apply IH. }
  destruct (longest_op operators (String c s)) as [[o r']|]; revert H; (apply Q; [exact I|]; intros l; apply IH).
Qed.

(** ** Names and values of definitions *)
Definition odd_kw (s : string) : bool := mem s ["type"; "map"].
Definition wv (s : string) : bool := is_int s || (is_word s && (negb (mem s keywords) || odd_kw s)).
Definition ytok_ok (t : ytok) : Prop :=
  match t with IDENT s => is_word s = true /\ wv s = true | CONST s => is_int s = true | _ => True end.
Lemma Lex_ok t y : gtok_ok t -> Lex t = Some y -> ytok_ok y.
Proof.
  intros T H. destruct t as [w|w|o| |w| | | | |]; cbn [Lex] in H; try discriminate H.
  - destruct T as [T1 T2]. destruct (assoc w x_keywords) as [k|] eqn:E; injection H as <-.
    + cbn in E. repeat match type of E with (if ?b then _ else _) = _ => destruct b; [injection E as <-; exact I|] end. discriminate E.
    + cbn [ytok_ok]. unfold wv. rewrite T1, T2. split; [reflexivity|]. apply orb_true_r.
  - cbn in H. repeat match type of H with (if ?b then _ else _) = _ => destruct b; [injection H as <-; try exact I; split; reflexivity|] end. discriminate H.
  - injection H as <-. exact T.
  - cbn in H. repeat match type of H with (if ?b then _ else _) = _ => destruct b; [injection H as <-; exact I|] end. discriminate H.
  - injection H as <-. exact I.
Qed.
Lemma tokens_ok s ts : x_tokens s = Some ts -> Forall ytok_ok ts.
Proof.
  unfold x_tokens, go_tokens. destruct (lex _ false s) as [l|] eqn:E; [|discriminate]. apply lex_ok in E. intros H. revert ts H. induction E as [|t l T _ IH]; intros ts H; cbn [all_some] in H; [injection H as <-; constructor|].
  destruct (Lex t) as [y|] eqn:Ey; [|discriminate]. destruct (all_some Lex l) as [r|]; [|discriminate]. injection H as <-. constructor; [eapply Lex_ok; eassumption|apply IH; reflexivity].
Qed.

Definition wbound (s : string) : bool := String.eqb s "" || wv s.
(** As [wd] of GoText.v; type and map are let through as values. *)
Fixpoint wk (t : typespec) : bool :=
  match t with
  | typeStruct items => (fix go l := match l with [] => true | d :: l => wk_d d && go l end) items
  | typeUnion sw cases def =>
      wk_d sw &&
      (fix go (l : list (list string * decl)) := match l with [] => true | c :: l => match fst c with [] => false | _ => forallb is_lab (fst c) end && wk_d (snd c) && go l end) cases &&
      match def with Some d => wk_d d | None => true end
  | typeIdent n => is_word n
  | _ => true
  end
with wk_dt (t : declType) : bool :=
  match t with
  | declTypeTypespec t => wk t
  | declTypeArray t sz => wk t && wv sz
  | declTypeVarArray t sz => wk t && wbound sz
  | declTypeOpaqueArray sz => wv sz
  | declTypeOpaqueVarArray sz | declTypeString sz => wbound sz
  | declTypePtr t => wk t
  end
with wk_d (d : decl) : bool := match d with declVoid => true | declName t n => wk_dt t && is_word n end.
Definition wk_its := fix go (l : list decl) := match l with [] => true | d :: l => wk_d d && go l end.
Definition wk_case (c : list string * decl) : bool := match fst c with [] => false | _ => forallb is_lab (fst c) end && wk_d (snd c).
Definition wk_cases := fix go (l : list (list string * decl)) :=
  match l with [] => true | c :: l => match fst c with [] => false | _ => forallb is_lab (fst c) end && wk_d (snd c) && go l end.
Lemma wk_union s c d : wk (typeUnion s c d) = wk_d s && wk_cases c && match d with Some d => wk_d d | None => true end.
Proof. reflexivity. Qed.
Lemma wk_its_app l l' : wk_its (l ++ l') = wk_its l && wk_its l'.
Proof. induction l as [|d l IH]; [reflexivity|]. cbn [app wk_its]. fold wk_its. rewrite IH, andb_assoc. reflexivity. Qed.
Lemma wk_cases_app l l' : wk_cases (l ++ l') = wk_cases l && wk_cases l'.
Proof. induction l as [|d l IH]; [reflexivity|]. cbn [app wk_cases]. fold wk_cases. rewrite IH, andb_assoc. reflexivity. Qed.
Definition wk_opt (o : typespecOpt) : bool := match o with Some t => wk t | None => true end.
Definition wk_call (c : progCall) : bool := is_word (pc_name c) && is_int (pc_id c) && wk_opt (pc_arg c) && wk_opt (pc_res c).
Definition wk_ver (v : progVer) : bool := is_word (pv_name v) && is_int (pv_id v) && forallb wk_call (pv_calls v).
Definition wk_item (it : enumItem) : bool := is_word (fst it) && wv (snd it).
Definition wk_defn (d : defn) : bool :=
  match d with
  | defConst n v => is_word n && wv n && is_int v
  | defTypedef d => wk_d d
  | defEnum n l => is_word n && forallb wk_item l
  | defStruct n l => is_word n && wk_its l
  | defUnion n s c d => is_word n && wk (typeUnion s c d)
  | defProg p => is_word (pd_name p) && is_int (pd_id p) && forallb wk_ver (pd_vers p)
  end.
Ltac inv_tok := repeat match goal with
  | H : Forall _ (_ ++ _) |- _ => apply Forall_app in H; destruct H
  | H : Forall _ (_ :: _) |- _ => apply Forall_cons_iff in H; destruct H
  | H : ytok_ok (IDENT _) |- _ => destruct H
  end.
Lemma val_wv s v : D_val s v -> Forall ytok_ok v -> wv s = true.
Proof. intros H F. inversion H; subst; inv_tok; [|assumption]. unfold wv. cbn [ytok_ok] in *. match goal with H : is_int _ = true |- _ => rewrite H end. reflexivity. Qed.
Lemma val_lab s v : D_val s v -> Forall ytok_ok v -> is_lab s = true.
Proof. intros H F. inversion H; subst; inv_tok; unfold is_lab; cbn [ytok_ok] in *; match goal with H : is_int _ = true |- _ => rewrite H | H : is_word _ = true |- _ => rewrite H end; [reflexivity|apply orb_true_r]. Qed.
Lemma varlen_wv s v : D_varlen s v -> Forall ytok_ok v -> wbound s = true.
Proof. intros H F. inversion H; subst; [reflexivity|]. inv_tok. unfold wbound. erewrite val_wv by eassumption. apply orb_true_r. Qed.
Lemma items_wk l ts : D_enumitems l ts -> Forall ytok_ok ts -> forallb wk_item l = true.
Proof.
  assert (O : forall i ts, D_enumitem i ts -> Forall ytok_ok ts -> wk_item i = true).
  { intros i us H F. inversion H; subst. inv_tok. unfold wk_item. cbn [fst snd]. erewrite val_wv by eassumption. rewrite H1. reflexivity. }
  induction 1 as [i ts Hi|l ts i ts' _ IH Hi]; intros F.
  - cbn. rewrite (O _ _ Hi F). reflexivity.
  - inv_tok. rewrite forallb_app, IH by assumption. cbn. erewrite O by eassumption. reflexivity.
Qed.
Lemma cases_wk l ts : D_caselist l ts -> Forall ytok_ok ts -> l <> [] /\ forallb is_lab l = true.
Proof.
  induction 1 as [s v Hv|l ts s v _ IH Hv]; intros F; inv_tok.
  - split; [discriminate|]. cbn. erewrite val_lab by eassumption. reflexivity.
  - split; [destruct l; discriminate|]. rewrite forallb_app. destruct IH as [_ ->]; [assumption|]. cbn. erewrite val_lab by eassumption. reflexivity.
Qed.
Lemma types_wk :
  (forall t ts, D_typespec t ts -> Forall ytok_ok ts -> wk t = true) /\
  (forall d ts, D_decl d ts -> Forall ytok_ok ts -> wk_d d = true) /\
  (forall l ts, D_structbody l ts -> Forall ytok_ok ts -> wk_its l = true) /\
  (forall l ts, D_structdecls l ts -> Forall ytok_ok ts -> wk_its l = true) /\
  (forall s c d ts, D_unionbody s c d ts -> Forall ytok_ok ts -> wk (typeUnion s c d) = true) /\
  (forall c d ts, D_unioncasesdef c d ts -> Forall ytok_ok ts -> wk_cases c = true /\ match d with Some d => wk_d d | None => true end = true) /\
  (forall c ts, D_unioncases c ts -> Forall ytok_ok ts -> wk_cases c = true) /\
  (forall c ts, D_unioncase c ts -> Forall ytok_ok ts -> wk_cases [c] = true).
Proof.
  apply D_mutind; try (intros; reflexivity).
  - intros l ts _ IH F. inv_tok. apply IH. assumption.
  - intros s c d ts _ IH F. inv_tok. apply IH. assumption.
  - intros n F. inv_tok. assumption.
  - intros t ts n _ IH F. inv_tok. cbn. rewrite IH by assumption. assumption.
  - intros t ts n s v _ IH Hv F. inv_tok. cbn. rewrite IH by assumption. erewrite val_wv by eassumption. assumption.
  - intros t ts n s v _ IH Hv F. inv_tok. cbn. rewrite IH by assumption. erewrite varlen_wv by eassumption. assumption.
  - intros n s v Hv F. inv_tok. cbn. erewrite val_wv by eassumption. assumption.
  - intros n s v Hv F. inv_tok. cbn. erewrite varlen_wv by eassumption. assumption.
  - intros n s v Hv F. inv_tok. cbn. erewrite varlen_wv by eassumption. assumption.
  - intros t ts n _ IH F. inv_tok. cbn. rewrite IH by assumption. assumption.
  - intros l ts _ IH F. inv_tok. apply IH. assumption.
  - intros l ts d ts' _ IH _ IH' F. inv_tok. rewrite wk_its_app, IH by assumption. cbn. rewrite IH' by assumption. reflexivity.
  - intros s ts c d ts' _ IH _ IH' F. inv_tok. rewrite wk_union, IH by assumption. destruct IH' as [-> ->]; [assumption|reflexivity].
  - intros c ts _ IH F. rewrite IH by assumption. split; reflexivity.
  - intros c ts d ts' _ IH _ IH' F. inv_tok. rewrite IH, IH' by assumption. split; reflexivity.
  - intros l ts c ts' _ IH _ IH' F. inv_tok. rewrite wk_cases_app, IH, IH' by assumption. reflexivity.
  - intros l ts d ts' Hl _ IH F. inv_tok. cbn. destruct (cases_wk _ _ Hl ltac:(assumption)) as [N ->]. rewrite IH by assumption. destruct l; [congruence|reflexivity].
Qed.
Lemma opt_wk o ts : D_typespecopt o ts -> Forall ytok_ok ts -> wk_opt o = true.
Proof. intros H F. inversion H; subst; [reflexivity|]. cbn. eapply (proj1 types_wk); eassumption. Qed.
Lemma calls_wk l ts : D_progcalls l ts -> Forall ytok_ok ts -> forallb wk_call l = true.
Proof.
  induction 1 as [|l ts c ts' _ IH Hc]; intros F; [reflexivity|]. inv_tok. rewrite forallb_app, IH by assumption. cbn. inversion Hc; subst. inv_tok. unfold wk_call. cbn [pc_name pc_id pc_arg pc_res].
  erewrite !opt_wk by eassumption. cbn [ytok_ok] in *. repeat match goal with H : _ = true |- _ => rewrite H; clear H end. reflexivity.
Qed.
Lemma vers_wk l ts : D_progvers l ts -> Forall ytok_ok ts -> forallb wk_ver l = true.
Proof.
  induction 1 as [|l ts c ts' _ IH Hc]; intros F; [reflexivity|]. inv_tok. rewrite forallb_app, IH by assumption. cbn. inversion Hc; subst. inv_tok. unfold wk_ver. cbn [pv_name pv_id pv_calls].
  erewrite !calls_wk by eassumption. cbn [ytok_ok] in *. repeat match goal with H : _ = true |- _ => rewrite H; clear H end. reflexivity.
Qed.
Lemma defn_wk d ts : D_defn d ts -> Forall ytok_ok ts -> wk_defn d = true.
Proof.
  intros H F. destruct types_wk as (Q1 & Q2 & Q3 & Q4 & Q5 & _). inversion H; subst; inv_tok; cbn [wk_defn pd_name pd_id pd_vers ytok_ok] in *.
  - eapply Q2; eassumption.
  - match goal with H : D_enumbody _ _ |- _ => inversion H; subst end. inv_tok. erewrite items_wk by eassumption. rewrite H2. reflexivity.
  - erewrite Q3 by eassumption. rewrite H2. reflexivity.
  - erewrite Q5 by eassumption. rewrite H2. reflexivity.
  - repeat match goal with H : _ = true |- _ => rewrite H; clear H end. reflexivity.
  - erewrite vers_wk by eassumption. repeat match goal with H : _ = true |- _ => rewrite H; clear H end. reflexivity.
Qed.
Theorem front_wk src ds : front src = Some ds -> forallb wk_defn ds = true.
Proof.
  unfold front. destruct (x_tokens src) as [ts|] eqn:E; [|discriminate]. apply tokens_ok in E. intros H. apply parse_iff in H. revert E. induction H as [|l ts d ts' _ IH Hd]; intros F; [reflexivity|]. inv_tok. rewrite forallb_app, IH by assumption. cbn. erewrite defn_wk by eassumption. reflexivity.
Qed.

(** ** Supported specifications *)
Section Names.
Variable K : list xconst.
Variable E : env.
(** The Go names of the constants are declarable. *)
Hypothesis KR : forall c, In c K -> mem (xc_go c) reserved = false.
Lemma find_x_In x l c : find_x x l = Some c -> In c l.
Proof. induction l as [|d l IH]; cbn; [discriminate|]. destruct (String.eqb x (xc_name d)); [intros [= ->]; left; reflexivity|right; auto]. Qed.
Lemma use_val s : wv s = true -> use_ok K s = true -> is_val s = true.
Proof.
  unfold wv, use_ok, is_val. rewrite !orb_true_iff, !andb_true_iff, orb_true_iff. intros [W|[W [N|N]]] U; [left; exact W|right; split; assumption|]. exfalso.
  unfold odd_kw in N. apply mem_In in N. destruct U as [U|U].
  - destruct N as [<-|[<-|[]]]; discriminate U.
  - unfold named in U. destruct (find_x s K) as [c|] eqn:F; [|discriminate]. apply String.eqb_eq in U. apply find_x_In, KR in F. rewrite U in F. destruct N as [<-|[<-|[]]]; discriminate F.
Qed.
Lemma bound_valid s : wbound s = true -> bound_ok K s = true -> bound_val s = true.
Proof. unfold wbound, bound_ok, bound_val. destruct (String.eqb s ""); [reflexivity|]. cbn [orb]. apply use_val. Qed.
Definition nok_its (arr : bool) := fix go (l : list decl) := match l with [] => true | d :: l => nok_d K E arr d && go l end.
Definition nok_cases (arr : bool) := fix go (l : list (list string * decl)) := match l with [] => true | c :: l => nok_d K E arr (snd c) && go l end.
Lemma nok_wd :
  (forall t arr, wk t = true -> nok K E arr t = true -> wd t = true) /\
  (forall t arr, wk_dt t = true -> nok_dt K E arr t = true -> wd_dt t = true) /\
  (forall d arr, wk_d d = true -> nok_d K E arr d = true -> wd_d d = true).
Proof.
  assert (IT : forall l, Forall (fun d => forall arr, wk_d d = true -> nok_d K E arr d = true -> wd_d d = true) l -> forall arr, wk_its l = true -> nok_its arr l = true -> wd_its l = true).
  { induction 1 as [|d l Hd _ IH]; intros arr W N; [reflexivity|]. cbn in *. apply andb_true_iff in W, N. destruct W as [W1 W2], N as [N1 N2]. rewrite (Hd arr W1 N1). exact (IH arr W2 N2). }
  assert (CT : forall l, Forall (fun c => forall arr, wk_d (snd c) = true -> nok_d K E arr (snd c) = true -> wd_d (snd c) = true) l -> forall arr, wk_cases l = true -> nok_cases arr l = true -> wd_cases l = true).
  { induction 1 as [|d l Hd _ IH]; intros arr W N; [reflexivity|]. cbn in *. apply andb_true_iff in W, N. destruct W as [W1 W2], N as [N1 N2]. apply andb_true_iff in W1. destruct W1 as [-> W1]. rewrite (Hd arr W1 N1). exact (IH arr W2 N2). }
  apply ast_ind; try (intros; assumption); try (intros; reflexivity).
  - intros l Hl arr W N. exact (IT l Hl arr W N).
  - intros s c d Hs Hc Hd arr W N. rewrite wk_union in W. rewrite wd_union. apply andb_true_iff in W. destruct W as [W W3]. apply andb_true_iff in W. destruct W as [W1 W2].
    change (match s with declVoid => false | declName st _ => disc_ok K E st c && nok_dt K E arr st end && nok_cases arr c && match d with Some d => nok_d K E arr d | None => true end = true) in N.
    apply andb_true_iff in N. destruct N as [N N3]. apply andb_true_iff in N. destruct N as [N1 N2].
    rewrite (CT c Hc arr W2 N2). destruct s as [|st sn]; [discriminate|]. apply andb_true_iff in N1. destruct N1 as [_ N1]. rewrite (Hs arr W1 N1). destruct d as [d|]; [|reflexivity]. exact (Hd d eq_refl arr W3 N3).
  - intros t IH arr W N. exact (IH arr W N).
  - intros t sz IH arr W N. discriminate N.
  - intros t sz IH arr W N. cbn in *. apply andb_true_iff in W, N. destruct W as [W1 W2], N as [N1 N2]. apply andb_true_iff in N1. destruct N1 as [_ N1]. rewrite (IH _ W1 N2). exact (bound_valid sz W2 N1).
  - intros sz arr W N. exact (use_val sz W N).
  - intros sz arr W N. exact (bound_valid sz W N).
  - intros sz arr W N. exact (bound_valid sz W N).
  - intros t IH arr W N. exact (IH arr W N).
  - intros t n IH arr W N. cbn in *. apply andb_true_iff in W. destruct W as [W ->]. rewrite (IH arr W N). reflexivity.
Qed.
End Names.

(** The arguments and results of procedures are named types of the specification. *)
Definition opt_named (E : env) (o : typespecOpt) : bool :=
  match o with None => true | Some (typeIdent n) => match lookup (cap n) E with Some _ => true | None => false end | Some _ => false end.
Definition call_named (E : env) (c : progCall) : bool := opt_named E (pc_arg c) && opt_named E (pc_res c).
Definition prog_named (E : env) (d : defn) : bool :=
  match d with defProg p => forallb (fun v => forallb (call_named E) (pv_calls v)) (pd_vers p) | _ => true end.
(** The names declared at package level. *)
Definition decl_names (P : gprog) : list string :=
  pkg_names (gp_pkg P) ++ map if_name (gp_ifaces P) ++ map fst (gp_wraps P) ++ map rd_name (gp_regs P).
(** A supported specification with its programs. *)
Definition supported_prog (fl : flags) (ds : list defn) : option (env * gprog) :=
  do EG <- supported fl ds ;
  do P <- prog_of fl ds ;
  if forallb (prog_named (fst EG)) ds && nodupb (decl_names P) then Some (fst EG, P) else None.

Lemma is_int_val s : is_int s = true -> is_val s = true.
Proof. unfold is_val. intros ->. reflexivity. Qed.
Lemma opt_wd E o : opt_named E o = true -> wk_opt o = true -> match o with Some t => wd t | None => true end = true.
Proof. destruct o as [t|]; [|reflexivity]. destruct t; try discriminate. intros _ H. exact H. Qed.
Lemma defn_wd K E d : (forall c, In c K -> mem (xc_go c) reserved = false) -> (forall c, In c (xconsts_of d) -> mem (xc_go c) reserved = false) ->
  wk_defn d = true -> nok_defn K E d = true -> prog_named E d = true -> wd_defn d = true.
Proof.
  intros KR KD W N P. destruct (nok_wd K E KR) as (N1 & N2 & N3). destruct d as [n v|d|n l|n l|n s c d|p]; cbn [wk_defn nok_defn wd_defn prog_named] in *.
  - apply andb_true_iff in W. destruct W as [W W3]. apply andb_true_iff in W. destruct W as [W1 W2]. rewrite (is_int_val v W3), andb_true_r. unfold is_name. rewrite W1. cbn [andb].
    unfold wv in W2. rewrite W1 in W2. cbn [andb] in W2. apply orb_true_iff in W2. destruct W2 as [W2|W2].
    + exfalso. unfold is_int in W2. destruct n as [|c n]; [discriminate|]. cbn in W1, W2. apply andb_true_iff in W1, W2. destruct W1 as [W1 _], W2 as [W2 _]. apply digit_not in W2. destruct W2 as (_ & _ & W2). congruence.
    + apply orb_true_iff in W2. destruct W2 as [W2|W2]; [exact W2|]. unfold odd_kw in W2. apply mem_In in W2. specialize (KD _ (or_introl eq_refl)). cbn [xc_go] in KD. destruct W2 as [<-|[<-|[]]]; discriminate KD.
  - exact (N3 d false W N).
  - apply andb_true_iff in W. destruct W as [-> W]. cbn [andb]. rewrite forallb_forall in *. intros it I. specialize (W it I). specialize (N it I). unfold wk_item, wd_item in *. apply andb_true_iff in W. destruct W as [-> W]. exact (use_val K KR _ W N).
  - apply andb_true_iff in W. destruct W as [-> W]. cbn [andb]. exact (N1 (typeStruct l) false W N).
  - apply andb_true_iff in W. destruct W as [-> W]. cbn [andb]. exact (N1 (typeUnion s c d) false W N).
  - apply andb_true_iff in W. destruct W as [W W3]. apply andb_true_iff in W. destruct W as [-> W2]. rewrite (is_int_val _ W2). cbn [andb]. rewrite forallb_forall in *. intros v I. specialize (W3 v I). specialize (P v I).
    unfold wk_ver, wd_ver in *. apply andb_true_iff in W3. destruct W3 as [W W3]. apply andb_true_iff in W. destruct W as [-> W]. rewrite (is_int_val _ W). cbn [andb]. rewrite forallb_forall in *. intros c Ic. specialize (W3 c Ic). specialize (P c Ic).
    unfold wk_call, wd_call, call_named in *. apply andb_true_iff in W3, P. destruct W3 as [W3 Wr], P as [Pa Pr]. apply andb_true_iff in W3. destruct W3 as [W3 Wa]. apply andb_true_iff in W3. destruct W3 as [-> Wi]. rewrite (is_int_val _ Wi).
    rewrite (opt_wd E _ Pa Wa), (opt_wd E _ Pr Wr). reflexivity.
Qed.
Lemma xconsts_names fl ds c : In c (xconsts ds) -> In (xc_go c) (map c_name (flat_map (const_decl fl) ds)).
Proof.
  unfold xconsts. rewrite !in_flat_map. intros (d & I & H). apply in_map_iff. destruct d as [n v|d|n l|n l|n s cs d|p]; cbn [xconsts_of] in H; try (destruct H; fail).
  - destruct H as [<-|[]]. eexists. split; [|apply in_flat_map; exists (defConst n v); split; [exact I|left; reflexivity]]. reflexivity.
  - apply in_map_iff in H. destruct H as (it & <- & H). exists (mkC (cap (fst it)) (Some (GNamed (cap n))) (snd it)). split; [reflexivity|]. apply in_flat_map. exists (defEnum n l). split; [exact I|]. cbn [const_decl]. apply in_map_iff. exists it. split; [reflexivity|exact H].
Qed.
Lemma supported_inv fl ds E G : supported fl ds = Some (E, G) ->
  el_spec fl ds = Some E /\ pkg_of fl ds = Some G /\ forallb (nok_defn (xconsts ds) E) ds = true /\ nodupb (pkg_names G) = true /\ forall x, In x (pkg_names G) -> mem x reserved = false.
Proof.
  unfold supported. intros H. sinv H. sinv H. destruct (_ && _) eqn:Q in H; [|discriminate]. injection H as -> ->. apply andb_true_iff in Q. destruct Q as [Q Q3]. apply andb_true_iff in Q. destruct Q as [Q1 Q2].
  repeat split; try assumption. intros x I. rewrite forallb_forall in Q3. specialize (Q3 x I). apply negb_true_iff in Q3. exact Q3.
Qed.
Lemma supported_prog_inv fl ds E P : supported_prog fl ds = Some (E, P) ->
  exists G, supported fl ds = Some (E, G) /\ prog_of fl ds = Some P /\ forallb (prog_named E) ds = true /\ nodupb (decl_names P) = true /\ gp_pkg P = G.
Proof.
  unfold supported_prog. intros H. sinv H. sinv H. destruct a as [E' G]. cbn [fst] in H. destruct (_ && _) eqn:Q in H; [|discriminate]. injection H as -> ->. apply andb_true_iff in Q. destruct Q as [Q1 Q2].
  exists G. repeat split; try assumption. destruct (supported_inv _ _ _ _ E0) as (_ & HG & _). unfold prog_of in E1. rewrite HG in E1. cbn [pbind] in E1. sinv E1. injection E1 as <-. reflexivity.
Qed.
Lemma supported_wd fl src ds E P : front src = Some ds -> supported_prog fl ds = Some (E, P) -> forallb wd_defn ds = true.
Proof.
  intros F S. apply supported_prog_inv in S. destruct S as (G & S & _ & PN & _). apply supported_inv in S. destruct S as (_ & HG & NK & _ & NR). pose proof (front_wk _ _ F) as W.
  assert (KR : forall c, In c (xconsts ds) -> mem (xc_go c) reserved = false).
  { intros c I. apply NR. unfold pkg_names. apply in_or_app. right. unfold pkg_of in HG. sinv HG. sinv HG. injection HG as <-. cbn [g_consts]. apply xconsts_names, I. }
  rewrite forallb_forall in *. intros d I. apply (defn_wd (xconsts ds) E d KR); [|apply W, I|apply NK, I|apply PN, I].
  intros c Ic. apply KR. unfold xconsts. apply in_flat_map. exists d. split; assumption.
Qed.

(** ** Its emission succeeds *)
Lemma type_emits :
  (forall t g, gt t = Some g -> exists s, goType t = Some s) /\
  (forall t g, gt_dt t = Some g -> exists s, declGoType t = Some s) /\
  (forall d g, gt_field d = Some g -> exists s, nameGotype d = Some s).
Proof.
  assert (IT : forall l, Forall (fun d => forall g, gt_field d = Some g -> exists s, nameGotype d = Some s) l -> forall g, its_gt l = Some g -> exists s, items_type l = Some s).
  { induction 1 as [|d l Hd _ IH]; intros g H; cbn in *; [eauto|]. sinv H. sinv H. destruct (Hd _ E) as [s ->]. destruct (IH _ E0) as [s' ->]. cbn. eauto. }
  assert (CT : forall l, Forall (fun d : list string * decl => forall g, gt_field (snd d) = Some g -> exists s, nameGotype (snd d) = Some s) l -> forall g, cases_gt l = Some g -> exists s, cases_type l = Some s).
  { induction 1 as [|d l Hd _ IH]; intros g H; cbn in *; [eauto|]. sinv H. sinv H. destruct (Hd _ E) as [s ->]. destruct (IH _ E0) as [s' ->]. cbn. eauto. }
  apply ast_ind; try (intros; cbn; eauto; fail).
  - intros g H. discriminate H.
  - intros l Hl g H. rewrite gt_struct_eq in H. sinv H. rewrite goType_struct. destruct (IT l Hl _ E) as [s ->]. cbn. eauto.
  - intros s c d Hs Hc Hd g H. rewrite gt_union_eq in H. sinv H. sinv H. sinv H. rewrite goType_union. destruct (Hs _ E) as [x ->]. destruct (CT c Hc _ E0) as [y ->]. cbn [pbind]. destruct d as [d|]; [|cbn; eauto]. destruct (Hd d eq_refl _ E1) as [z ->]. cbn. eauto.
  - intros t sz IH g H. cbn in *. sinv H. destruct (IH _ E) as [s ->]. cbn. eauto.
  - intros t sz IH g H. cbn in *. sinv H. destruct (IH _ E) as [s ->]. cbn. eauto.
  - intros t IH g H. cbn in *. sinv H. destruct (IH _ E) as [s ->]. cbn. eauto.
  - intros t n IH g H. cbn in *. sinv H. destruct (IH _ E) as [s ->]. cbn. eauto.
Qed.
Definition declx (d : decl) : Prop := match d with declVoid => True | declName t _ => forall P ss, gx_dt t P = Some ss -> forall p, exists s, declXdr t p = Some s end.
Lemma declx_field d : declx d -> forall P ss, gx_field d P = Some ss -> forall p, exists s, fieldXdr d p = Some s.
Proof. destruct d as [|t n]; cbn [declx gx_field fieldXdr]; [eauto|]. intros H P ss E p. exact (H _ _ E _). Qed.
Lemma xdr_emits :
  (forall t P ss, gx t P = Some ss -> forall p, exists s, goXdr t p = Some s) /\
  (forall t P ss, gx_dt t P = Some ss -> forall p, exists s, declXdr t p = Some s) /\
  (forall d, declx d).
Proof.
  assert (IT : forall l, Forall declx l -> forall P ss, its_gx P l = Some ss -> forall p, exists s, items_xdr p l = Some s).
  { induction 1 as [|d l Hd _ IH]; intros P ss H p; cbn in *; [eauto|]. sinv H. sinv H. destruct (declx_field _ Hd _ _ E p) as [s ->]. destruct (IH _ _ E0 p) as [s' ->]. cbn. eauto. }
  assert (CT : forall l, Forall (fun d : list string * decl => declx (snd d)) l -> forall P ss, cases_gx P l = Some ss -> forall p, exists s, cases_xdr p l = Some s).
  { induction 1 as [|d l Hd _ IH]; intros P ss H p; cbn in *; [eauto|]. sinv H. sinv H. destruct (declx_field _ Hd _ _ E p) as [s ->]. destruct (IH _ _ E0 p) as [s' ->]. cbn. eauto. }
  apply ast_ind.
  - intros u P ss _ p. cbn. eauto.
  - intros u P ss _ p. cbn. eauto.
  - intros P ss H. discriminate H.
  - intros P ss H. discriminate H.
  - intros P ss H. discriminate H.
  - intros P ss _ p. cbn. eauto.
  - intros l P ss H. discriminate H.
  - intros l Hl P ss H p. rewrite goXdr_struct. rewrite gx_struct_eq in H. exact (IT l Hl _ _ H p).
  - intros s c d Hs Hc Hd P ss H p. destruct s as [|st sn]; [discriminate|]. rewrite gx_union_eq in H. sinv H. sinv H. sinv H. rewrite goXdr_union. cbv zeta.
    destruct (CT c Hc _ _ E0 p) as [y ->]. cbn [declx] in Hs. destruct (Hs _ _ E ("&(" +++ ("(" +++ p +++ ")." +++ cap sn) +++ ")")) as [x ->]. cbn [pbind].
    destruct d as [d|]; [|cbn [pbind]; eauto]. sinv E1. destruct (declx_field _ (Hd d eq_refl) _ _ E2 p) as [z ->]. cbn [pbind]. eauto.
  - intros n P ss _ p. cbn. eauto.
  - intros t IH P ss H p. exact (IH _ _ H p).
  - intros t sz IH P ss H p. cbn [gx_dt declXdr] in *. sinv H. destruct (IH _ _ E ("&(*(" +++ p +++ ")[i])")) as [s ->]. cbn [pbind]. eauto.
  - intros t sz IH P ss H p. cbn [gx_dt declXdr] in *. sinv H. sinv H. destruct (proj1 type_emits _ _ E) as [e ->]. destruct (IH _ _ E0 ("&((*(" +++ p +++ "))[i])")) as [s ->]. cbn [pbind]. cbv zeta. eauto.
  - intros sz P ss _ p. cbn. eauto.
  - intros sz P ss _ p. cbn. eauto.
  - intros sz P ss _ p. cbn. eauto.
  - intros t IH P ss H p. cbn [gx_dt declXdr] in *. sinv H. sinv H. destruct (proj1 type_emits _ _ E) as [e ->]. destruct (IH _ _ E0 ("*(" +++ p +++ ")")) as [s ->]. cbn [pbind]. eauto.
  - exact I.
  - intros t n IH. exact IH.
Qed.
Lemma gopt_emits o g : gopt o = Some g -> exists s, maybeGoType o = Some s.
Proof. destruct o as [t|]; cbn; [|eauto]. destruct (gt t) as [a|] eqn:E; [|discriminate]. intros _. exact (proj1 type_emits t a E). Qed.
Lemma cat_emits {A B} (f : A -> option string) (h : A -> option B) l : (forall a b, h a = Some b -> exists s, f a = Some s) -> forall r, omap h l = Some r -> exists s, cat_opt f l = Some s.
Proof.
  intros Q. induction l as [|a l IH]; intros r H; cbn [omap cat_opt] in *; [eauto|]. sinv H. sinv H. destruct (Q _ _ E) as [s ->]. destruct (IH _ E0) as [s' ->]. cbn. eauto.
Qed.
Lemma call_emits pv c k : g_call c = Some k -> (exists s, iface_line c = Some s) /\ (exists s, wrapper pv c = Some s).
Proof.
  unfold g_call. intros H. sinv H. sinv H. destruct (gopt_emits _ _ E) as [s Hs]. destruct (gopt_emits _ _ E0) as [s' Hs']. unfold iface_line, wrapper. rewrite Hs, Hs'. cbn [pbind]. eauto.
Qed.
Lemma defn_emits fl d ts ms vs : ty_decl fl d = Some ts -> meth_decl fl d = Some ms -> match d with defProg p => g_prog p | _ => Some [] end = Some vs -> exists ws, emit fl d = Some ws.
Proof.
  intros T M V. destruct d as [n v|d|n l|n l|n s c d|p]; cbn [ty_decl meth_decl emit] in *; [eauto| |eauto|..].
  - destruct d as [|t n]; [cbn; eauto|]. sinv T. sinv M. cbn [emitTypedef]. destruct (proj1 (proj2 type_emits) t _ E) as [g ->]. cbn [pbind].
    pose proof (proj1 (proj2 xdr_emits) t _ _ E0) as X. destruct t; cbv zeta beta iota; match goal with |- context [declXdr ?t ?p] => destruct (X p) as [b ->] end; cbn [pbind]; eauto.
  - sinv T. sinv M. rewrite gt_struct_eq in E. sinv E. unfold emitStruct. destruct (proj1 xdr_emits (typeStruct l) _ _ E0 "v") as [b ->].
    assert (exists ls, cat_opt struct_line l = Some ls) as [ls ->]; [|cbn [pbind]; eauto]. clear -E1. revert a1 E1. induction l as [|d l IH]; intros fs H; cbn [cat_opt]; [eauto|]. cbn in H. sinv H. sinv H. destruct (IH _ E0) as [s ->].
    destruct d as [|t n]; cbn [struct_line]; [cbn [pbind]; eauto|]. cbn in E. sinv E. destruct (proj1 (proj2 type_emits) t _ E1) as [g ->]. cbn [pbind]. eauto.
  - sinv T. sinv M. unfold emitUnion. destruct (proj1 type_emits (typeUnion s c d) _ E) as [g ->]. destruct (proj1 xdr_emits (typeUnion s c d) _ _ E0 "v") as [b ->]. cbn [pbind]. eauto.
  - unfold emitProg. unfold g_prog in V. assert (exists l, emit_list (emitVer (pd_name p)) (pd_vers p) = Some l) as [l ->]; [|cbn [pbind]; eauto]. clear T M. revert vs V. induction (pd_vers p) as [|v l IH]; intros vs V; cbn [omap emit_list] in *; [eauto|].
    sinv V. sinv V. destruct (IH _ E0) as [x ->]. unfold g_ver in E. sinv E. unfold emitVer. cbv zeta. 
    destruct (cat_emits iface_line g_call (pv_calls v) (fun c k H => proj1 (call_emits "" c k H)) _ E1) as [s1 ->]. destruct (cat_emits (wrapper (cap (pd_name p) +++ "_" +++ cap (pv_name v))) g_call (pv_calls v) (fun c k H => proj2 (call_emits _ c k H)) _ E1) as [s2 ->]. cbn [pbind]. eauto.
Qed.
Lemma list_emits fl ds P : prog_of fl ds = Some P -> exists ws, emit_list (emit fl) ds = Some ws.
Proof.
  unfold prog_of, pkg_of. intros H. sinv H. sinv E. sinv E. sinv H. clear H E. revert a0 a1 a2 E0 E1 E2. induction ds as [|d ds IH]; intros ts ms vs T M V; cbn [emit_list all_decls vers_of] in *; [eauto|].
  sinv T. sinv T. sinv M. sinv M. sinv V. sinv V. destruct (defn_emits fl d _ _ _ E E1 E3) as [w ->]. destruct (IH _ _ _ E0 E2 E4) as [ws ->]. cbn [pbind]. eauto.
Qed.
(** A supported specification is emitted, and the files declare what [prog_of] says. *)
Theorem gen_declares fl src ds E P : ok_flags fl = true -> front src = Some ds -> supported_prog fl ds = Some (E, P) ->
  exists o, generate fl src = Some o /\ declares (fl_pkg fl) (files_of o) P.
Proof.
  intros F Fr S. pose proof (supported_wd _ _ _ _ _ Fr S) as W. pose proof S as S'. apply supported_prog_inv in S'. destruct S' as (G & _ & PO & _). destruct (list_emits _ _ _ PO) as [ws Hw].
  assert (exists o, generate fl src = Some o) as [o Ho]; [unfold generate; rewrite Fr; cbn [pbind]; rewrite Hw; cbn [pbind]; eauto|].
  exists o. split; [exact Ho|]. destruct (gen_files fl src ds o F Fr W Ho) as (P' & PO' & D). assert (P = P') as -> by congruence. exact D.
Qed.
