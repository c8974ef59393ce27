(** Lexing of text put together from fixed and variable pieces: the scanner of GoLex.v on a
    concatenation, and a function that computes its tokens. *)
From Verif Require Import GoLex XLex Gram GParse Emit GLexP.
Open Scope string_scope.
Open Scope list_scope.

Definition lexs (semi : bool) (s : string) : option (list gtok) := lex (S (String.length s)) semi s.
Lemma go_tokens_lexs s : go_tokens s = lexs false s.
Proof. reflexivity. Qed.
Lemma lex_lexs n semi s : (String.length s < n)%nat -> lex n semi s = lexs semi s.
Proof. intros H. apply lex_fuel; [exact H|lia]. Qed.

(** The next character, if any, satisfies [F]. *)
Definition nxt (F : ascii -> bool) (r : string) : Prop := match r with EmptyString => True | String c _ => F c = true end.

(** Which characters can follow a token without changing it; None: no token ends here. *)
Definition is_one_of (l : string) (c : ascii) : bool := (fix go s := match s with EmptyString => false | String a s => Ascii.eqb c a || go s end) l.
Definition numc (c : ascii) : bool := is_idchar c || is_one_of ".+-" c.
Definition okc (l : option gtok) (c : ascii) : bool :=
  match l with
  | None => true
  | Some (GIdent _) | Some (GKw _) => negb (is_idchar c)
  | Some (GInt _) => negb (numc c)
  | Some (GOp o) => forallb (fun q => match strip (o +++ String c "") q with Some _ => false | None => true end) operators &&
                    negb (String.eqb o ".") && negb (String.eqb o "/") || (String.eqb o "." && is_letter c)
  | Some GSemi | Some (GStr _) => true
  | Some _ => false
  end.

Lemma strip_same o r : strip o (o +++ r) = Some r.
Proof. induction o; cbn; [reflexivity|]. rewrite Ascii.eqb_refl. exact IHo. Qed.
Lemma strip_ext q : forall o c r, strip q o = None -> strip (o +++ String c "") q = None -> strip q (o +++ String c r) = None.
Proof.
  induction q as [|a q IH]; intros [|b o] c r H1 H2; cbn in *; try discriminate.
  - destruct (Ascii.eqb_spec c a); [discriminate|]. destruct (Ascii.eqb_spec a c); [congruence|reflexivity].
  - destruct (Ascii.eqb_spec a b) as [->|]; [|reflexivity]. rewrite Ascii.eqb_refl in H2. apply IH; assumption.
Qed.
Lemma strip_more q : forall o x r, strip q o = Some x -> strip q (o +++ r) = Some (x +++ r).
Proof.
  induction q as [|a q IH]; intros [|b o] x r H; cbn in *; try discriminate; try (inversion H; reflexivity).
  destruct (Ascii.eqb a b); [|discriminate]. apply IH. exact H.
Qed.
Lemma longest_ext ops o c r : longest_op ops o = Some (o, "") ->
  forallb (fun q => match strip (o +++ String c "") q with Some _ => false | None => true end) ops = true ->
  longest_op ops (o +++ String c r) = Some (o, String c r).
Proof.
  induction ops as [|q ops IH]; cbn; intros H E; [discriminate|]. apply andb_true_iff in E. destruct E as [E1 E2].
  destruct (strip q o) as [x|] eqn:S1.
  - assert (q = o /\ x = "") as [-> ->] by (split; congruence). rewrite strip_same. reflexivity.
  - rewrite (strip_ext _ _ _ _ S1); [apply IH; assumption|]. destruct (strip _ q); [discriminate|reflexivity].
Qed.

Lemma lex_S n semi c r : lex (S n) semi (String c r) =
  let emit t r := option_map (cons t) (lex n (ends_line t) r) in
  if is_blank c then lex n semi r
  else if Ascii.eqb c nl then if semi then option_map (cons GSemi) (lex n false r) else lex n false r
  else if is_letter c then let '(w, r') := span is_idchar (String c r) in emit (lookup_word w) r'
  else if is_digit c || (Ascii.eqb c "." && head_is is_digit r) then let '(t, r') := scan_number (String c r) in emit t r'
  else if Ascii.eqb c "/" && head_is (chr "/") r then lex n semi (line_comment r)
  else if Ascii.eqb c "/" && head_is (chr "*") r then
    let '(b, r') := block_comment (match r with String _ r => r | EmptyString => EmptyString end) in
    if semi && b then option_map (cons GSemi) (lex n false r') else lex n semi r'
  else if Ascii.eqb c dquote then let '(w, r') := quoted dquote r in emit (GStr (String c w)) r'
  else if Ascii.eqb c "'" then let '(w, r') := quoted "'" r in emit (GChar (String c w)) r'
  else if Ascii.eqb c "`" then let '(w, r') := raw_quoted r in emit (GStr (String c w)) r'
  else if Ascii.eqb c ";" then emit GSemi r
  else match longest_op operators (String c r) with
       | Some (o, r') => emit (GOp o) r'
       | None => option_map (cons (GIllegal c)) (lex n semi r)
       end.
Proof. reflexivity. Qed.
Lemma lexs_cons semi c r : lexs semi (String c r) = lex (S (S (String.length r))) semi (String c r).
Proof. reflexivity. Qed.

(** ** One token *)
Definition lexes (w : string) (t : gtok) : Prop :=
  forall semi r, nxt (okc (Some t)) r -> lexs semi (w +++ r) = option_map (cons t) (lexs (ends_line t) r).
Lemma lexs_S semi s : lexs semi s = lex (S (S (String.length s))) semi s.
Proof. symmetry. apply lex_lexs. lia. Qed.

Fixpoint all_chars (p : ascii -> bool) (s : string) : bool := match s with EmptyString => true | String c r => p c && all_chars p r end.
Lemma span_all p s r : all_chars p s = true -> nxt (fun c => negb (p c)) r -> span p (s +++ r) = (s, r).
Proof.
  induction s as [|c s IH]; cbn; intros H N.
  - destruct r as [|c r]; [reflexivity|]. cbn in *. apply negb_true_iff in N. rewrite N. reflexivity.
  - apply andb_true_iff in H. destruct H as [H1 H2]. rewrite H1, IH by assumption. reflexivity.
Qed.
Definition is_word (s : string) : bool := match s with String c r => is_letter c && all_chars is_idchar r | EmptyString => false end.
Lemma letter_not c : is_letter c = true -> is_blank c = false /\ Ascii.eqb c nl = false.
Proof. intros H. destruct c as [[] [] [] [] [] [] [] []]; try discriminate H; split; reflexivity. Qed.
Lemma digit_not c : is_digit c = true -> is_blank c = false /\ Ascii.eqb c nl = false /\ is_letter c = false.
Proof. intros H. destruct c as [[] [] [] [] [] [] [] []]; try discriminate H; repeat split; reflexivity. Qed.

Lemma lexs_letter semi c r : is_letter c = true ->
  lexs semi (String c r) = let '(w, r') := span is_idchar (String c r) in option_map (cons (lookup_word w)) (lexs (ends_line (lookup_word w)) r').
Proof.
  intros H. rewrite lexs_cons, lex_S. cbn zeta. destruct (letter_not c H) as [-> ->]. rewrite H.
  pose proof (span_first is_idchar c r) as L. unfold is_idchar at 1 in L. rewrite H in L. specialize (L eq_refl).
  destruct (span is_idchar (String c r)) as [w r']. cbn in L. f_equal. apply lex_lexs. lia.
Qed.
Lemma word_lexes w : is_word w = true -> lexes w (lookup_word w).
Proof.
  intros H semi r N. destruct w as [|c w]; [discriminate|]. cbn in H. apply andb_true_iff in H. destruct H as [Hc Hw].
  assert (A : all_chars is_idchar (String c w) = true) by (cbn; unfold is_idchar at 1; rewrite Hc, Hw; reflexivity).
  change (String c w +++ r) with (String c (w +++ r)). rewrite lexs_letter by exact Hc.
  change (String c (w +++ r)) with (String c w +++ r). rewrite span_all; [reflexivity|exact A|].
  destruct r; [exact I|]. cbn in *. unfold lookup_word in N. destruct (mem _ keywords); exact N.
Qed.

(** A number: [scan_number] takes all of it as an integer. *)
Definition is_int (s : string) : bool :=
  head_is is_digit s && match scan_number s with (GInt t, r) => String.eqb t s && String.eqb r "" | _ => false end.
Lemma is_int_scan s : is_int s = true -> scan_number s = (GInt s, "").
Proof.
  unfold is_int. rewrite andb_true_iff. intros [_ H]. destruct (scan_number s) as [[] r]; try discriminate.
  apply andb_true_iff in H. destruct H as [H1 H2]. apply String.eqb_eq in H1, H2. subst. reflexivity.
Qed.
Section NumAfter.
Variable d : ascii.
Hypothesis Hd : numc d = false.
Variable t : string.
Definition stops (p : ascii -> bool) : Prop := p d = false.
Lemma head_nafter p s : stops p -> head_is p (s +++ String d t) = head_is p s.
Proof. intros Hp. destruct s; cbn; [exact Hp|reflexivity]. Qed.
Lemma span_nafter p s : stops p -> span p (s +++ String d t) = (fst (span p s), snd (span p s) +++ String d t).
Proof.
  intros Hp. induction s as [|c s IH]; cbn; [rewrite Hp; reflexivity|]. destruct (p c); [|reflexivity].
  rewrite IH. destruct (span p s). reflexivity.
Qed.
Lemma opt_part_nafter p f s : stops p -> (head_is p s = true -> f (s +++ String d t) = (fst (f s), snd (f s) +++ String d t)) ->
  opt_part p f (s +++ String d t) = (fst (fst (opt_part p f s)), snd (fst (opt_part p f s)), snd (opt_part p f s) +++ String d t).
Proof.
  intros Hp Hf. unfold opt_part. rewrite head_nafter by exact Hp. destruct (head_is p s); [|reflexivity].
  rewrite (Hf eq_refl). destruct (f s). reflexivity.
Qed.
Lemma take1_nafter p s : head_is p s = true -> take1 (s +++ String d t) = (fst (take1 s), snd (take1 s) +++ String d t).
Proof. destruct s; [discriminate|reflexivity]. Qed.
Ltac sd := unfold stops; revert Hd; destruct d as [[] [] [] [] [] [] [] []]; intros Hd'; try discriminate Hd'; reflexivity.
Lemma sd_dec : stops is_dec_sep. Proof. sd. Qed.
Lemma sd_hex : stops is_hex_sep. Proof. sd. Qed.
Lemma int_part_nafter s : s <> "" -> int_part (s +++ String d t) =
  (fst (fst (int_part s)), snd (fst (int_part s)) +++ String d t, snd (int_part s)) /\ stops (snd (int_part s)).
Proof.
  intros Ns. destruct s as [|c s]; [congruence|]. destruct (Ascii.eqb_spec c "0") as [->|Nc].
  - cbn [String.append int_part]. rewrite (head_nafter (fun c => lchr "x" c) s) by sd.
    destruct (head_is (fun c => lchr "x" c) s) eqn:Ex.
    { rewrite (take1_nafter (fun c => lchr "x" c)) by exact Ex. destruct (take1 s) as [x r]. cbn [fst snd].
      rewrite span_nafter by exact sd_hex. destruct (span is_hex_sep r). split; [reflexivity|exact sd_hex]. }
    rewrite (head_nafter (fun c => lchr "o" c || lchr "b" c) s) by sd.
    destruct (head_is (fun c => lchr "o" c || lchr "b" c) s) eqn:Eo.
    { rewrite (take1_nafter (fun c => lchr "o" c || lchr "b" c)) by exact Eo. destruct (take1 s) as [x r]. cbn [fst snd].
      rewrite span_nafter by exact sd_dec. destruct (span is_dec_sep r). split; [reflexivity|exact sd_dec]. }
    rewrite span_nafter by exact sd_dec. destruct (span is_dec_sep s). split; [reflexivity|exact sd_dec].
  - cbn [String.append]. rewrite !int_part_other by exact Nc. change (String c (s +++ String d t)) with (String c s +++ String d t).
    rewrite span_nafter by exact sd_dec. destruct (span is_dec_sep (String c s)). split; [reflexivity|exact sd_dec].
Qed.
Lemma frac_nafter digs s : stops digs -> head_is (chr ".") s = true -> frac_part digs (s +++ String d t) = (fst (frac_part digs s), snd (frac_part digs s) +++ String d t).
Proof.
  intros Hg Hh. unfold frac_part. rewrite (take1_nafter (chr ".")) by exact Hh. destruct (take1 s) as [x r]. cbn [fst snd].
  rewrite span_nafter by exact Hg. destruct (span digs r). reflexivity.
Qed.
Lemma exp_nafter s : head_is (fun c => lchr "e" c || lchr "p" c) s = true -> exp_part (s +++ String d t) = (fst (exp_part s), snd (exp_part s) +++ String d t).
Proof.
  intros Hh. unfold exp_part. rewrite (take1_nafter _ _ Hh). destruct (take1 s) as [x r]. cbn [fst snd].
  rewrite opt_part_nafter; [|sd|intros Hh'; apply (take1_nafter _ _ Hh')].
  destruct (opt_part _ take1 r) as [[b y] r2]. cbn [fst snd]. rewrite span_nafter by exact sd_dec. destruct (span is_dec_sep r2). reflexivity.
Qed.
Lemma scan_number_nafter s : s <> "" -> scan_number (s +++ String d t) = (fst (scan_number s), snd (scan_number s) +++ String d t).
Proof.
  intros Ns. rewrite !scan_number_tail. destruct (int_part_nafter s Ns) as [E N]. rewrite E. destruct (int_part s) as [[a r] digs]. cbn [fst snd] in *.
  rewrite opt_part_nafter; [|sd|intros Hh; apply frac_nafter; assumption]. destruct (opt_part _ (frac_part digs) r) as [[dot b] r1]. cbn [fst snd].
  unfold num_tail. rewrite opt_part_nafter; [|sd|apply exp_nafter]. destruct (opt_part _ exp_part r1) as [[ex c'] r2]. cbn [fst snd].
  rewrite opt_part_nafter; [|sd|intros Hh'; apply (take1_nafter _ _ Hh')]. destruct (opt_part _ take1 r2) as [[im e] r3]. reflexivity.
Qed.
End NumAfter.
Lemma sapp_nil s : s +++ "" = s.
Proof. induction s; cbn; [reflexivity|]. rewrite IHs. reflexivity. Qed.
Lemma int_lexes w : is_int w = true -> lexes w (GInt w).
Proof.
  intros H semi r N. pose proof (is_int_scan _ H) as Sc. unfold is_int in H. apply andb_true_iff in H. destruct H as [Hd _].
  destruct w as [|c w]; [discriminate|]. cbn in Hd. destruct (digit_not c Hd) as (B1 & B2 & B3).
  assert (Sr : scan_number (String c w +++ r) = (GInt (String c w), r)).
  { destruct r as [|d r]; [rewrite sapp_nil; exact Sc|]. cbn in N. apply negb_true_iff in N.
    rewrite scan_number_nafter by (exact N || discriminate). rewrite Sc. reflexivity. }
  change (String c w +++ r) with (String c (w +++ r)). rewrite lexs_cons, lex_S. cbn zeta. rewrite B1, B2, B3, Hd. cbn [orb].
  change (String c (w +++ r)) with (String c w +++ r). rewrite Sr. f_equal. apply lex_lexs. rewrite app_length. lia.
Qed.

(** Operators. *)
Definition is_operator (o : string) : bool := mem o operators.
Definition op_ok (o : string) : bool :=
  match longest_op operators o with Some (p, r) => String.eqb p o && String.eqb r "" | None => false end &&
  match o with String c _ => negb (is_blank c || Ascii.eqb c nl || is_letter c || is_digit c || is_one_of ";'`" c || Ascii.eqb c dquote) | EmptyString => false end.
Lemma op_lexes o : op_ok o = true -> lexes o (GOp o).
Proof.
  intros H semi r N. unfold op_ok in H. apply andb_true_iff in H. destruct H as [H1 H2].
  destruct (longest_op operators o) as [[p q]|] eqn:L; [|discriminate]. apply andb_true_iff in H1. destruct H1 as [E1 E2]. apply String.eqb_eq in E1, E2. subst.
  destruct o as [|c o]; [discriminate|]. set (w := String c o) in *.
  assert (B : is_blank c = false /\ Ascii.eqb c nl = false /\ is_letter c = false /\ is_digit c = false /\ Ascii.eqb c dquote = false /\
              Ascii.eqb c ";" = false /\ Ascii.eqb c "'" = false /\ Ascii.eqb c "`" = false).
  { apply negb_true_iff in H2. unfold is_one_of in H2.
    repeat match goal with H : _ || _ = false |- _ => apply orb_false_iff in H; destruct H end. repeat split; assumption. }
  destruct B as (B1 & B2 & B3 & B4 & B5 & B6 & B7 & B8).
  assert (K : r = "" \/ exists d r', r = String d r') by (destruct r; eauto).
  assert (LG : longest_op operators (w +++ r) = Some (w, r) /\ (Ascii.eqb c "." && head_is is_digit (o +++ r) = false) /\ (Ascii.eqb c "/" = true -> False \/ r = "" /\ o = "" \/ o <> "" )).
  { destruct K as [->|(d & r' & ->)].
    - rewrite sapp_nil. split; [exact L|]. split.
      + destruct (Ascii.eqb_spec c ".") as [->|]; [|reflexivity]. destruct o as [|c2 o]; [reflexivity|]. cbn.
        destruct (is_digit c2) eqn:D; [|reflexivity]. exfalso. unfold w in L. cbn in L. destruct c2 as [[] [] [] [] [] [] [] []]; discriminate.
      + intros _. right. destruct o; [left; auto|right; discriminate].
    - cbn [nxt okc] in N. apply orb_true_iff in N. destruct N as [N|N].
      + apply andb_true_iff in N. destruct N as [N N3]. apply andb_true_iff in N. destruct N as [N1 N2]. apply negb_true_iff in N2, N3. split; [apply longest_ext; assumption|]. split.
        * destruct (Ascii.eqb_spec c ".") as [->|]; [|reflexivity]. destruct o as [|c2 o]; [discriminate|]. cbn.
          destruct (is_digit c2) eqn:D; [|reflexivity]. exfalso. unfold w in L. cbn in L. destruct c2 as [[] [] [] [] [] [] [] []]; discriminate.
        * intros E. apply Ascii.eqb_eq in E. subst. right. right. destruct o; discriminate.
      + apply andb_true_iff in N. destruct N as [N1 N2]. apply String.eqb_eq in N1. unfold w in *. injection N1 as -> ->. split; [|split].
        * cbn [String.append]. destruct d as [[] [] [] [] [] [] [] []]; try discriminate N2; reflexivity.
        * cbn. destruct d as [[] [] [] [] [] [] [] []]; try discriminate N2; reflexivity.
        * discriminate. }
  destruct LG as (LG & D1 & D2).
  change (w +++ r) with (String c (o +++ r)). rewrite lexs_cons, lex_S. cbn zeta. rewrite B1, B2, B3, B4, B5, B6, B7, B8, D1. cbn [orb].
  assert (SL : Ascii.eqb c "/" && head_is (chr "/") (o +++ r) = false /\ Ascii.eqb c "/" && head_is (chr "*") (o +++ r) = false).
  { destruct (Ascii.eqb_spec c "/") as [->|]; [|split; reflexivity]. destruct (D2 eq_refl) as [[]|[[-> ->]|No]]; [split; reflexivity|].
    destruct o as [|c2 o]; [congruence|]. cbn in L. unfold w in L. cbn in L.
    destruct c2 as [[] [] [] [] [] [] [] []]; try discriminate L; split; reflexivity. }
  destruct SL as [-> ->]. change (String c (o +++ r)) with (w +++ r). rewrite LG. f_equal. apply lex_lexs. rewrite app_length. lia.
Qed.

(** ** Fixed text *)
(** A string literal without escapes, after the opening quote. *)
Fixpoint closedq (s : string) : option (string * string) :=
  match s with
  | EmptyString => None
  | String c r =>
      if Ascii.eqb c nl || Ascii.eqb c "\" then None
      else if Ascii.eqb c dquote then Some (String c "", r)
      else match closedq r with Some (w, r') => Some (String c w, r') | None => None end
  end.
Lemma closedq_app s : forall w r' r, closedq s = Some (w, r') -> quoted dquote (s +++ r) = (w, r' +++ r).
Proof.
  induction s as [|c s IH]; intros w r' r H; [discriminate|]. cbn [closedq] in H. cbn [String.append quoted].
  destruct (Ascii.eqb c nl); [discriminate|]. destruct (Ascii.eqb c "\"); [discriminate|]. cbn [orb] in H.
  destruct (Ascii.eqb c dquote); [inversion H; reflexivity|].
  destruct (closedq s) as [[w1 r1]|] eqn:E; [|discriminate]. inversion H; subst. rewrite (IH _ _ r eq_refl). reflexivity.
Qed.
Lemma closedq_suffix s : forall w r', closedq s = Some (w, r') -> suffix r' s.
Proof.
  induction s as [|c s IH]; intros w r' H; [discriminate|]. cbn [closedq] in H. destruct (_ || _); [discriminate|].
  destruct (Ascii.eqb c dquote); [inversion H; subst; apply suffix_cons, suffix_refl|].
  destruct (closedq s) as [[w1 r1]|] eqn:E; [|discriminate]. inversion H; subst. apply suffix_cons. eapply IH. reflexivity.
Qed.

Definition qcons (t : gtok) (o : option (list gtok * bool * option gtok)) : option (list gtok * bool * option gtok) :=
  match o with Some (ts, b, l) => Some (t :: ts, b, l) | None => None end.
(** The tokens of [s], the state of insertSemi after it and the token that ends [s], if any;
    [l]: the token that ends just before [s].  None for what is not needed below. *)
Fixpoint lexq (n : nat) (b : bool) (l : option gtok) (s : string) : option (list gtok * bool * option gtok) :=
  match n with
  | O => None
  | S n =>
      match s with
      | EmptyString => Some ([], b, l)
      | String c r =>
          if negb (okc l c) then None
          else if is_blank c then lexq n b None r
          else if Ascii.eqb c nl then if b then qcons GSemi (lexq n false None r) else lexq n false None r
          else if is_letter c then let '(w, r') := span is_idchar s in qcons (lookup_word w) (lexq n (ends_line (lookup_word w)) (Some (lookup_word w)) r')
          else if is_digit c then let '(w, r') := span is_idchar s in if is_int w then qcons (GInt w) (lexq n true (Some (GInt w)) r') else None
          else if Ascii.eqb c dquote then match closedq r with Some (w, r') => qcons (GStr (String c w)) (lexq n true None r') | None => None end
          else if Ascii.eqb c ";" then qcons GSemi (lexq n false None r)
          else match longest_op operators s with
               | Some (o, r') => if op_ok o then qcons (GOp o) (lexq n (ends_line (GOp o)) (Some (GOp o)) r') else None
               | None => None
               end
      end
  end.
Lemma span_split p s : s = fst (span p s) +++ snd (span p s) /\ all_chars p (fst (span p s)) = true.
Proof.
  induction s as [|c s [IH1 IH2]]; cbn; [auto|]. destruct (p c) eqn:E; [|auto]. destruct (span p s) as [a b]. cbn in *. rewrite E, IH2. split; [f_equal; exact IH1|reflexivity].
Qed.
Lemma strip_split o : forall s r, strip o s = Some r -> s = o +++ r.
Proof.
  induction o as [|a o IH]; intros [|b s] r H; cbn in *; try discriminate; try (inversion H; reflexivity).
  destruct (Ascii.eqb_spec a b) as [->|]; [|discriminate]. f_equal. apply IH. exact H.
Qed.
Lemma longest_split ops s o r : longest_op ops s = Some (o, r) -> s = o +++ r.
Proof.
  induction ops as [|q ops IH]; cbn; [discriminate|]. destruct (strip q s) eqn:E; [|exact IH]. intros H. inversion H; subst. apply strip_split. exact E.
Qed.
Lemma omap_app {A} (x : A) l o : option_map (cons x) (option_map (app l) o) = option_map (app (x :: l)) o.
Proof. destruct o; reflexivity. Qed.
Lemma lexs_blank semi c r : is_blank c = true -> lexs semi (String c r) = lexs semi r.
Proof. intros H. rewrite lexs_cons, lex_S. cbn zeta. rewrite H. apply lex_lexs. lia. Qed.
Lemma lexs_nl semi r : lexs semi (String nl r) = if semi then option_map (cons GSemi) (lexs false r) else lexs false r.
Proof.
  rewrite lexs_cons, lex_S. cbn zeta. change (is_blank nl) with false. change (Ascii.eqb nl nl) with true. cbv iota.
  rewrite lex_lexs by lia. reflexivity.
Qed.
Lemma lexs_semi semi r : lexs semi (String ";" r) = option_map (cons GSemi) (lexs false r).
Proof. rewrite lexs_cons, lex_S. reflexivity. Qed.
Lemma lexq_ok n : forall b l s ts b' l', lexq n b l s = Some (ts, b', l') -> forall r, nxt (okc l') r ->
  nxt (okc l) (s +++ r) /\ lexs b (s +++ r) = option_map (app ts) (lexs b' r).
Proof.
  induction n as [|n IH]; intros b l s ts b' l' H r N; [discriminate|]. destruct s as [|c s].
  { inversion H; subst. cbn [String.append]. split; [exact N|]. destruct (lexs b' r); reflexivity. }
  cbn [lexq] in H. destruct (okc l c) eqn:Ok; [|discriminate]. split; [exact Ok|]. cbn [negb] in H. cbn [String.append].
  assert (Q : forall t b1 l1 r1, qcons t (lexq n b1 l1 r1) = Some (ts, b', l') -> exists ts', ts = t :: ts' /\ lexq n b1 l1 r1 = Some (ts', b', l')).
  { intros t b1 l1 r1 Hq. destruct (lexq n b1 l1 r1) as [[[ts1 b2] l2]|]; [|discriminate]. inversion Hq; subst. eauto. }
  destruct (is_blank c) eqn:Eb. { rewrite lexs_blank by exact Eb. apply (IH _ _ _ _ _ _ H r N). }
  destruct (Ascii.eqb_spec c nl) as [->|Nl].
  { rewrite lexs_nl. destruct b.
    - apply Q in H. destruct H as (ts' & -> & H). rewrite (proj2 (IH _ _ _ _ _ _ H r N)). apply omap_app.
    - apply (IH _ _ _ _ _ _ H r N). }
  assert (TK : forall w t r1 l1 ts', String c s = w +++ r1 -> lexes w t -> l1 = Some t -> lexq n (ends_line t) l1 r1 = Some (ts', b', l') ->
    lexs b (String c (s +++ r)) = option_map (app (t :: ts')) (lexs b' r)).
  { intros w t r1 l1 ts' Es Hl -> Hq. destruct (IH _ _ _ _ _ _ Hq r N) as [N1 E1].
    change (String c (s +++ r)) with (String c s +++ r). rewrite Es, sapp_assoc, Hl by exact N1. rewrite E1. apply omap_app. }
  destruct (is_letter c) eqn:El.
  { pose proof (span_split is_idchar (String c s)) as [S1 S2]. destruct (span is_idchar (String c s)) as [w r1] eqn:Es. cbn [fst snd] in *. apply Q in H. destruct H as (ts' & -> & H).
    eapply TK; [exact S1| |reflexivity|exact H]. apply word_lexes. destruct w as [|c1 w].
    - cbn [span] in Es. unfold is_idchar at 1 in Es. rewrite El in Es. cbn [orb] in Es. destruct (span is_idchar s). discriminate.
    - cbn [String.append] in S1. inversion S1; subst. cbn in *. rewrite El. apply andb_true_iff in S2. apply S2. }
  destruct (is_digit c) eqn:Ed.
  { pose proof (span_split is_idchar (String c s)) as [S1 S2]. destruct (span is_idchar (String c s)) as [w r1] eqn:Es. cbn [fst snd] in *. destruct (is_int w) eqn:Ew; [|discriminate].
    apply Q in H. destruct H as (ts' & -> & H). eapply TK; [exact S1| |reflexivity|exact H]. apply int_lexes. exact Ew. }
  destruct (Ascii.eqb_spec c dquote) as [->|Nq].
  { destruct (closedq s) as [[w r1]|] eqn:Ec; [|discriminate]. apply Q in H. destruct H as (ts' & -> & H). rewrite lexs_cons, lex_S. cbn zeta. cbn - [lex quoted].
    rewrite (closedq_app _ _ _ r Ec). rewrite lex_lexs by (destruct (closedq_suffix _ _ _ Ec) as [p ->]; rewrite !app_length; lia).
    destruct (IH _ _ _ _ _ _ H r N) as [N1 E1]. rewrite E1. apply omap_app. }
  destruct (Ascii.eqb_spec c ";") as [->|Ns].
  { apply Q in H. destruct H as (ts' & -> & H). rewrite lexs_semi. rewrite (proj2 (IH _ _ _ _ _ _ H r N)). apply omap_app. }
  destruct (longest_op operators (String c s)) as [[o r1]|] eqn:Eo; [|discriminate]. destruct (op_ok o) eqn:Op; [|discriminate].
  apply Q in H. destruct H as (ts' & -> & H). eapply TK; [eapply longest_split; exact Eo| |reflexivity|exact H]. apply op_lexes. exact Op.
Qed.

(** ** Fixed and variable pieces *)
(** What is known of a variable piece: its possible first characters, whether it can be
    empty, the characters that can follow it, insertSemi before and after. *)
Record kind : Type := mkKind { k_first : ascii -> bool; k_empty : bool; k_next : ascii -> bool; k_in : option bool; k_out : bool }.
Definition sym_ok (k : kind) (s : string) (ts : list gtok) : Prop :=
  match s with EmptyString => k_empty k = true | String c _ => k_first k c = true end /\
  forall b r, (forall b0, k_in k = Some b0 -> b = b0) -> nxt (k_next k) r -> lexs b (s +++ r) = option_map (app ts) (lexs (k_out k) r).
Inductive piece : Type := PLit (s : string) | PSym (k : kind) (s : string) (ts : list gtok).
Definition ptext (p : piece) : string := match p with PLit s => s | PSym _ s _ => s end.
Fixpoint cat (ps : list piece) : string :=
  match ps with [] => "" | [p] => ptext p | p :: ps => ptext p +++ cat ps end.
Definition all_ascii : list ascii := map (fun n => ascii_of_nat n) (seq 0 256).
Lemma all_ascii_in c : In c all_ascii.
Proof.
  unfold all_ascii. apply in_map_iff. exists (nat_of_ascii c). split; [apply ascii_nat_embedding|]. apply in_seq. pose proof (nat_ascii_bounded c). lia.
Qed.
Definition allowed (k : kind) (req : ascii -> bool) : bool :=
  forallb (fun c => negb (k_first k c || k_empty k) || req c) all_ascii.
Definition in_ok (k : kind) (b : bool) : bool := match k_in k with Some b0 => Bool.eqb b b0 | None => true end.
Fixpoint run (ps : list piece) (b : bool) (req : ascii -> bool) : option (list gtok * bool * (ascii -> bool)) :=
  match ps with
  | [] => Some ([], b, req)
  | PLit s :: ps =>
      match s with
      | EmptyString => run ps b req
      | String c _ =>
          if req c then
            match lexq (S (String.length s)) b None s with
            | Some (ts, b', l) => match run ps b' (okc l) with Some (us, b2, q) => Some (ts ++ us, b2, q) | None => None end
            | None => None
            end
          else None
      end
  | PSym k s ts :: ps =>
      if allowed k req && in_ok k b then
        match run ps (k_out k) (k_next k) with Some (us, b2, q) => Some (ts ++ us, b2, q) | None => None end
      else None
  end.
Definition pok (p : piece) : Prop := match p with PLit _ => True | PSym k s ts => sym_ok k s ts end.
Lemma cat_cons p ps r : cat (p :: ps) +++ r = ptext p +++ cat ps +++ r.
Proof. destruct ps; [reflexivity|]. cbn [cat]. apply sapp_assoc. Qed.
Lemma omap_app2 {A} (l l' : list A) o : option_map (app l) (option_map (app l') o) = option_map (app (l ++ l')) o.
Proof. destruct o; cbn; [rewrite app_assoc|]; reflexivity. Qed.
Lemma run_ok ps : Forall pok ps -> forall b req ts b' req', run ps b req = Some (ts, b', req') -> forall r, nxt req' r ->
  nxt req (cat ps +++ r) /\ lexs b (cat ps +++ r) = option_map (app ts) (lexs b' r).
Proof.
  induction 1 as [|p ps Hp _ IH]; intros b req ts b' req' H r N.
  { inversion H; subst. split; [exact N|]. change (cat [] +++ r) with r. destruct (lexs b' r); reflexivity. }
  rewrite cat_cons. destruct p as [s|k s us]; cbn [run] in H.
  - cbn [ptext]. destruct s as [|c s]; [apply (IH _ _ _ _ _ H r N)|]. destruct (req c) eqn:Rc; [|discriminate]. split; [exact Rc|].
    destruct (lexq _ b None (String c s)) as [[[ts1 b1] l]|] eqn:Q; [|discriminate]. destruct (run ps b1 (okc l)) as [[[us b2] q]|] eqn:R; [|discriminate]. inversion H; subst.
    destruct (IH _ _ _ _ _ R r N) as [N1 E1]. rewrite (proj2 (lexq_ok _ _ _ _ _ _ _ Q _ N1)), E1. apply omap_app2.
  - cbn [ptext]. destruct (allowed k req && in_ok k b) eqn:A; [|discriminate]. apply andb_true_iff in A. destruct A as [A1 A2].
    destruct (run ps (k_out k) (k_next k)) as [[[vs b2] q]|] eqn:R; [|discriminate]. inversion H; subst. destruct Hp as [Hf Hl].
    destruct (IH _ _ _ _ _ R r N) as [N1 E1]. split.
    + unfold allowed in A1. rewrite forallb_forall in A1. destruct s as [|c s].
      * destruct (cat ps +++ r) as [|c r']; [exact I|]. cbn. specialize (A1 c (all_ascii_in c)). rewrite Hf, orb_true_r in A1. exact A1.
      * cbn [nxt String.append]. specialize (A1 c (all_ascii_in c)). rewrite Hf in A1. exact A1.
    + rewrite Hl; [rewrite E1; apply omap_app2| |exact N1]. intros b0 Eb. unfold in_ok in A2. rewrite Eb in A2. apply eqb_prop. exact A2.
Qed.
(** How a text made of pieces becomes a piece. *)
Lemma pieces_sym k ps ts : Forall pok ps ->
  (forall b, in_ok k b = true -> exists ts' req', run ps b (fun _ => true) = Some (ts', k_out k, req') /\ ts' = ts /\ forallb (fun c => negb (k_next k c) || req' c) all_ascii = true) ->
  match cat ps with EmptyString => k_empty k = true | String c _ => k_first k c = true end ->
  sym_ok k (cat ps) ts.
Proof.
  intros Hp H Hf. split; [exact Hf|]. intros b r Hb N.
  destruct (H b) as (ts' & req' & R & -> & A).
  { unfold in_ok. destruct (k_in k) as [b0|]; [|reflexivity]. rewrite (Hb b0 eq_refl). apply eqb_reflx. }
  apply (run_ok ps Hp b _ ts (k_out k) req' R). destruct r as [|c r]; [exact I|]. cbn [nxt] in *. rewrite forallb_forall in A.
  specialize (A c (all_ascii_in c)). rewrite N in A. exact A.
Qed.

Definition kWord : kind := mkKind is_letter false (fun c => negb (is_idchar c)) None true.
Definition kVal : kind := mkKind is_idchar false (fun c => negb (numc c)) None true.
Definition kPtr : kind := mkKind (is_one_of "&*v(") false (is_one_of ") ") None true.
Definition kTy : kind := mkKind (fun c => is_letter c || is_one_of "*[" c) false (fun c => negb (is_idchar c)) None true.
Definition kStm : kind := mkKind (fun _ => true) true (fun _ => true) (Some false) false.

Lemma lookup_ident w : mem w keywords = false -> lookup_word w = GIdent w.
Proof. intros H. unfold lookup_word. rewrite H. reflexivity. Qed.
Lemma word_sym w : is_word w = true -> mem w keywords = false -> sym_ok kWord w [GIdent w].
Proof.
  intros H K. split.
  - destruct w as [|c w]; [discriminate|]. cbn in *. apply andb_true_iff in H. apply H.
  - intros b r _ N. rewrite (word_lexes w H) by (rewrite lookup_ident by exact K; exact N). rewrite lookup_ident by exact K. reflexivity.
Qed.
(** A value of the specification: a number or a name. *)
Definition val_tok (s : string) : gtok := if head_is is_digit s then GInt s else GIdent s.
Definition is_val (s : string) : bool := is_int s || (is_word s && negb (mem s keywords)).
Lemma val_sym w : is_val w = true -> sym_ok kVal w [val_tok w].
Proof.
  unfold is_val. rewrite orb_true_iff. intros [H|H].
  - assert (D : head_is is_digit w = true) by (unfold is_int in H; apply andb_true_iff in H; apply H).
    split.
    + destruct w as [|c w]; [discriminate|]. cbn in *. unfold is_idchar. rewrite D. apply orb_true_r.
    + intros b r _ N. unfold val_tok. rewrite D. apply (int_lexes w H). exact N.
  - apply andb_true_iff in H. destruct H as [H K]. apply negb_true_iff in K. destruct (word_sym w H K) as [F L].
    assert (D : head_is is_digit w = false). { destruct w as [|c w]; [reflexivity|]. cbn in *. destruct (is_digit c) eqn:E; [|reflexivity]. destruct (digit_not c E) as (_ & _ & X). cbn in F. congruence. }
    split.
    + destruct w as [|c w]; [discriminate|]. cbn in *. unfold is_idchar. rewrite F. reflexivity.
    + intros b r X N. unfold val_tok. rewrite D. apply L; [exact X|]. destruct r; [exact I|]. cbn in *. apply negb_true_iff in N. apply negb_true_iff. unfold numc in N. apply orb_false_iff in N. apply N.
Qed.
