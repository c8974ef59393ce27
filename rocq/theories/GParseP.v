(** The parser accepts exactly the grammar. *)
From Verif Require Import GoLex XLex Gram GParse.
Open Scope string_scope.
Open Scope list_scope.

Scheme D_typespec_mind := Minimality for D_typespec Sort Prop
  with D_decl_mind := Minimality for D_decl Sort Prop
  with D_structbody_mind := Minimality for D_structbody Sort Prop
  with D_structdecls_mind := Minimality for D_structdecls Sort Prop
  with D_unionbody_mind := Minimality for D_unionbody Sort Prop
  with D_unioncasesdef_mind := Minimality for D_unioncasesdef Sort Prop
  with D_unioncases_mind := Minimality for D_unioncases Sort Prop
  with D_unioncase_mind := Minimality for D_unioncase Sort Prop.
Combined Scheme D_mutind from D_typespec_mind, D_decl_mind, D_structbody_mind, D_structdecls_mind, D_unionbody_mind,
  D_unioncasesdef_mind, D_unioncases_mind, D_unioncase_mind.

Lemma ytok_eqb_eq a b : ytok_eqb a b = true <-> a = b.
Proof.
  split; [|intros ->; destruct b; cbn; try reflexivity; apply String.eqb_refl].
  destruct a, b; cbn; intros H; try discriminate; try reflexivity; apply String.eqb_eq in H; congruence.
Qed.
Lemma tk_some y ts r : tk y ts = Some r <-> ts = y :: r.
Proof.
  destruct ts as [|t ts]; cbn; [split; discriminate|]. destruct (ytok_eqb t y) eqn:E.
  - apply ytok_eqb_eq in E. subst. split; congruence.
  - split; [discriminate|]. intros [= -> ->]. rewrite (proj2 (ytok_eqb_eq y y)) in E; congruence.
Qed.
Lemma tk_here y r : tk y (y :: r) = Some r.
Proof. apply tk_some. reflexivity. Qed.
Lemma pbind_some {A B} (o : option A) (k : A -> option B) b : pbind o k = Some b -> exists a, o = Some a /\ k a = Some b.
Proof. destruct o as [a|]; cbn; [eauto|discriminate]. Qed.

Ltac pinv H :=
  match type of H with
  | pbind ?o ?k = Some _ =>
      let a := fresh "a" in let E := fresh "E" in
      apply pbind_some in H; destruct H as (a & E & H);
      repeat match goal with x : (_ * _)%type |- _ => destruct x end;
      try (apply tk_some in E; subst); pinv H
  | match tk ?y ?r with _ => _ end = Some _ =>
      let E := fresh "E" in destruct (tk y r) eqn:E; [apply tk_some in E; subst|]; pinv H
  | Some _ = Some _ => injection H as ?; subst
  | None = Some _ => discriminate H
  | _ => idtac
  end.

(** ** Soundness *)
Definition sound {A} (p : parser A) (D : A -> list ytok -> Prop) : Prop :=
  forall ts a r, p ts = Some (a, r) -> exists pre, ts = pre ++ r /\ D a pre.

Lemma p_id_some ts s r : p_id ts = Some (s, r) -> ts = IDENT s :: r.
Proof. destruct ts as [|[] ts]; try discriminate. intros [= -> ->]. reflexivity. Qed.
Lemma p_num_some ts s r : p_num ts = Some (s, r) -> ts = CONST s :: r.
Proof. destruct ts as [|[] ts]; try discriminate. intros [= -> ->]. reflexivity. Qed.
Ltac ids := repeat match goal with
  | E : p_id _ = Some _ |- _ => apply p_id_some in E; subst
  | E : p_num _ = Some _ |- _ => apply p_num_some in E; subst
  end.
Ltac leq := repeat (cbn [app]; rewrite <- ?app_assoc); cbn [app]; try reflexivity;
  repeat match goal with E : ?a = _ |- context [?a] => rewrite E end; repeat (cbn [app]; rewrite <- ?app_assoc); reflexivity.
(** Replace a successful parse by its derivation, using the soundness lemma [L]. *)
Ltac use L := match goal with E : _ = Some _ |- _ =>
  apply L in E; let v := fresh "v" in let K := fresh "K" in destruct E as (v & E & K); try subst end.
(** Conclude with the derivation built by [tac]. *)
Ltac fin tac := eexists; split; [|tac]; [leq].

Lemma p_val_sound : sound p_val D_val.
Proof.
  intros ts s r H. unfold p_val, orelse in H. destruct (p_num ts) as [[]|] eqn:E; [injection H as <- <-|]; ids.
  - exists [CONST s0]. split; [reflexivity|constructor].
  - exists [IDENT s]. split; [reflexivity|constructor].
Qed.
Lemma p_varlen_sound : sound p_varlen D_varlen.
Proof.
  intros ts s r H. unfold p_varlen in H. pinv H.
  - exists [YLt; YGt]. split; [reflexivity|constructor].
  - use p_val_sound. fin ltac:(constructor; eassumption).
Qed.
Lemma p_item_sound : sound p_item D_enumitem.
Proof.
  intros ts i r H. unfold p_item in H. pinv H. ids. use p_val_sound. fin ltac:(constructor; eassumption).
Qed.

Lemma items_cons i ti l ts : D_enumitem i ti -> D_enumitems l ts -> D_enumitems (i :: l) (ti ++ YComma :: ts).
Proof.
  intros Hi Hl. induction Hl as [j tj Hj|l ts j tj Hl IH Hj].
  - apply (D_items_more [i] ti j tj); [constructor; exact Hi|exact Hj].
  - change (i :: l ++ [j]) with ((i :: l) ++ [j]). replace (ti ++ YComma :: ts ++ YComma :: tj) with ((ti ++ YComma :: ts) ++ YComma :: tj)
      by (rewrite <- app_assoc; reflexivity). constructor; assumption.
Qed.
Lemma p_items_sound n : sound (p_items n) D_enumitems.
Proof.
  induction n as [|n IH]; intros ts l r H; cbn [p_items] in H; [discriminate|]. pinv H.
  - use IH. use p_item_sound. fin ltac:(apply items_cons; eassumption).
  - use p_item_sound. fin ltac:(constructor; eassumption).
Qed.
Lemma p_enumbody_sound n : sound (p_enumbody n) D_enumbody.
Proof.
  intros ts l r H. unfold p_enumbody in H. pinv H. use (p_items_sound n). fin ltac:(constructor; eassumption).
Qed.
Lemma caselist_cons s v l ts : D_val s v -> D_caselist l ts -> D_caselist (s :: l) (KWCASE :: v ++ YColon :: ts).
Proof.
  intros Hs Hl. induction Hl as [s' v' H'|l ts s' v' Hl IH H'].
  - replace (KWCASE :: v ++ YColon :: KWCASE :: v' ++ [YColon]) with ((KWCASE :: v ++ [YColon]) ++ KWCASE :: v' ++ [YColon])
      by (cbn; rewrite <- app_assoc; reflexivity).
    apply (D_case_more [s]); [constructor; exact Hs|exact H'].
  - replace (KWCASE :: v ++ YColon :: ts ++ KWCASE :: v' ++ [YColon]) with ((KWCASE :: v ++ YColon :: ts) ++ KWCASE :: v' ++ [YColon])
      by (cbn; rewrite <- app_assoc; reflexivity).
    apply (D_case_more (s :: l)); assumption.
Qed.
Lemma p_caselist_sound n : sound (p_caselist n) D_caselist.
Proof.
  induction n as [|n IH]; intros ts l r H; cbn [p_caselist] in H; [discriminate|]. pinv H.
  - use IH. use p_val_sound. fin ltac:(apply caselist_cons; eassumption).
  - use p_val_sound. fin ltac:(constructor; eassumption).
Qed.

Lemma decls_cons d td l ts : D_decl d td -> D_structdecls l ts -> D_structdecls (d :: l) (td ++ YSemi :: ts).
Proof.
  intros Hd. revert ts. induction l as [|e l IH] using rev_ind; intros ts Hl.
  - inversion Hl as [|l ts' d' td' _ _ E]; [subst|destruct l; discriminate].
    apply (D_decls_more [] []); [constructor|exact Hd].
  - inversion Hl as [E|l' ts' d' td' Hl' Hd' E]; [destruct l; discriminate|]. apply app_inj_tail in E. destruct E as [-> ->]. subst ts.
    replace (td ++ YSemi :: ts' ++ td' ++ [YSemi]) with ((td ++ YSemi :: ts') ++ td' ++ [YSemi]) by (rewrite <- app_assoc; reflexivity).
    apply (D_decls_more (d :: l)); [apply IH; exact Hl'|exact Hd'].
Qed.
Lemma cases_cons c tc l ts : D_unioncase c tc -> D_unioncases l ts -> D_unioncases (c :: l) (tc ++ ts).
Proof.
  intros Hd. revert ts. induction l as [|e l IH] using rev_ind; intros ts Hl.
  - inversion Hl as [|l ts' d' td' _ _ E]; [subst|destruct l; discriminate]. rewrite app_nil_r.
    apply (D_cases_more [] []); [constructor|exact Hd].
  - inversion Hl as [E|l' ts' d' td' Hl' Hd' E]; [destruct l; discriminate|]. apply app_inj_tail in E. destruct E as [-> ->]. subst ts.
    rewrite app_assoc. apply (D_cases_more (c :: l)); [apply IH; exact Hl'|exact Hd'].
Qed.

Definition usound (p : list ytok -> option (decl * list (list string * decl) * option decl * list ytok)) : Prop :=
  forall ts s c d r, p ts = Some (s, c, d, r) -> exists pre, ts = pre ++ r /\ D_unionbody s c d pre.

Lemma p_sound n : sound (p_typespec n) D_typespec /\ sound (p_decl n) D_decl /\ sound (p_structbody n) D_structbody /\
  sound (p_decls n) D_structdecls /\ usound (p_unionbody n) /\ sound (p_cases n) D_unioncases.
Proof.
  induction n as [|n (I1 & I2 & I3 & I4 & I5 & I6)]; [repeat split; intros ts; intros; discriminate|].
  split; [|split; [|split; [|split; [|split]]]].
  - intros ts t r H. cbn [p_typespec] in H.
    destruct ts as [|[] ts]; try discriminate H; pinv H;
      try (eexists [_]; split; [reflexivity|constructor]; fail).
    + use (p_enumbody_sound n). fin ltac:(constructor; eassumption).
    + use I3. fin ltac:(constructor; eassumption).
    + use I5. fin ltac:(constructor; eassumption).
    + destruct ts as [|[] ts]; try discriminate H; pinv H.
      * exists [KWUNSIGNED; KWINT]. split; [reflexivity|]. apply (D_int true [KWUNSIGNED]). constructor.
      * exists [KWUNSIGNED; KWHYPER]. split; [reflexivity|]. apply (D_hyper true [KWUNSIGNED]). constructor.
    + exists [KWINT]. split; [reflexivity|]. apply (D_int false []). constructor.
    + exists [KWHYPER]. split; [reflexivity|]. apply (D_hyper false []). constructor.
  - intros ts d r H. cbn [p_decl] in H. destruct (p_typespec n ts) as [[t r0]|] eqn:Et.
    + pinv H; ids.
      * use I1. fin ltac:(apply D_ptr; eassumption).
      * use p_val_sound. use I1. fin ltac:(apply D_array; eassumption).
      * use p_varlen_sound. use I1. fin ltac:(apply D_vararray; eassumption).
      * use I1. fin ltac:(apply D_plain; eassumption).
    + destruct ts as [|[] ts]; try discriminate H; pinv H; ids.
      * exists [KWVOID]. split; [reflexivity|constructor].
      * use p_val_sound. fin ltac:(apply D_opaque; eassumption).
      * use p_varlen_sound. fin ltac:(apply D_varopaque; eassumption).
      * use p_varlen_sound. fin ltac:(apply D_string; eassumption).
  - intros ts l r H. cbn [p_structbody] in H. pinv H. use I4. fin ltac:(constructor; eassumption).
  - intros ts l r H. cbn [p_decls] in H. destruct (p_decl n ts) as [[d r0]|] eqn:Ed; pinv H.
    + use I4. use I2. fin ltac:(apply decls_cons; eassumption).
    + exists []. split; [reflexivity|constructor].
  - intros ts s c d r H. cbn [p_unionbody] in H. pinv H.
    + use I6. use I2. use I2. fin ltac:(apply D_ubody; [eassumption|apply D_def; eassumption]).
    + use I6. use I2. fin ltac:(apply D_ubody; [eassumption|apply D_nodef; eassumption]).
  - intros ts l r H. cbn [p_cases] in H. pinv H.
    + use I6. use (p_caselist_sound n). use I2. fin ltac:(apply cases_cons; [apply D_ucase; eassumption|eassumption]).
    + exists []. split; [reflexivity|constructor].
Qed.

(** Left-recursive lists, from the front. *)
Lemma calls_cons c tc l ts : D_progcall c tc -> D_progcalls l ts -> D_progcalls (c :: l) (tc ++ ts).
Proof.
  intros Hd Hl. induction Hl as [|l ts e te Hl IH He]; [rewrite app_nil_r; apply (D_calls_more [] []); [constructor|exact Hd]|].
  rewrite app_assoc. apply (D_calls_more (c :: l)); assumption.
Qed.
Lemma vers_cons c tc l ts : D_progver c tc -> D_progvers l ts -> D_progvers (c :: l) (tc ++ ts).
Proof.
  intros Hd Hl. induction Hl as [|l ts e te Hl IH He]; [rewrite app_nil_r; apply (D_vers_more [] []); [constructor|exact Hd]|].
  rewrite app_assoc. apply (D_vers_more (c :: l)); assumption.
Qed.
Lemma spec_cons c tc l ts : D_defn c tc -> D_spec l ts -> D_spec (c :: l) (tc ++ ts).
Proof.
  intros Hd Hl. induction Hl as [|l ts e te Hl IH He]; [rewrite app_nil_r; apply (D_spec_more [] []); [constructor|exact Hd]|].
  rewrite app_assoc. apply (D_spec_more (c :: l)); assumption.
Qed.

Lemma p_opt_sound n : sound (p_opt n) D_typespecopt.
Proof.
  intros ts o r H. unfold p_opt in H. pinv H.
  - exists [KWVOID]. split; [reflexivity|constructor].
  - use (proj1 (p_sound n)). fin ltac:(constructor; eassumption).
Qed.
Lemma p_eq_some ts c r : p_eq ts = Some (c, r) -> ts = YEq :: CONST c :: YSemi :: r.
Proof. intros H. unfold p_eq in H. pinv H. ids. reflexivity. Qed.
Lemma p_call_sound n : sound (p_call n) D_progcall.
Proof.
  intros ts o r H. unfold p_call in H. pinv H. ids.
  match goal with E : p_eq _ = _ |- _ => apply p_eq_some in E; subst end.
  use (p_opt_sound n). use (p_opt_sound n). fin ltac:(constructor; eassumption).
Qed.
Lemma p_calls_sound n : sound (p_calls n) D_progcalls.
Proof.
  induction n as [|n IH]; intros ts l r H; cbn [p_calls] in H; [discriminate|]. pinv H.
  - exists []. split; [reflexivity|constructor].
  - use IH. use (p_call_sound n). fin ltac:(apply calls_cons; eassumption).
Qed.
Lemma p_ver_sound n : sound (p_ver n) D_progver.
Proof.
  intros ts o r H. unfold p_ver in H. pinv H. ids.
  match goal with E : p_eq _ = _ |- _ => apply p_eq_some in E; subst end.
  use (p_calls_sound n). fin ltac:(constructor; eassumption).
Qed.
Lemma p_vers_sound n : sound (p_vers n) D_progvers.
Proof.
  induction n as [|n IH]; intros ts l r H; cbn [p_vers] in H; [discriminate|]. pinv H.
  - exists []. split; [reflexivity|constructor].
  - use IH. use (p_ver_sound n). fin ltac:(apply vers_cons; eassumption).
Qed.
Lemma p_defn_sound n : sound (p_defn n) D_defn.
Proof.
  destruct (p_sound n) as (I1 & I2 & I3 & I4 & I5 & I6).
  intros ts d r H. unfold p_defn in H. destruct ts as [|[] ts]; try discriminate H; pinv H; ids;
    try match goal with E : p_eq _ = _ |- _ => apply p_eq_some in E; subst end.
  - eexists [_; _; _; _; _]. split; [reflexivity|constructor].
  - use I2. fin ltac:(constructor; eassumption).
  - use (p_enumbody_sound n). fin ltac:(constructor; eassumption).
  - use I3. fin ltac:(constructor; eassumption).
  - use I5. fin ltac:(constructor; eassumption).
  - use (p_vers_sound n). fin ltac:(constructor; eassumption).
Qed.
Lemma p_spec_sound n : forall ts l, p_spec n ts = Some l -> D_spec l ts.
Proof.
  induction n as [|n IH]; intros ts l H; cbn [p_spec] in H; [discriminate|]. destruct ts as [|t ts]; [injection H as <-; constructor|].
  pinv H. use (p_defn_sound n). rewrite E. apply spec_cons; [assumption|]. apply IH. assumption.
Qed.

(** ** Completeness.  [parses p a ts]: given any continuation allowed by [F] and enough fuel. *)
Definition parses {A} (p : nat -> parser A) (F : list ytok -> Prop) (a : A) (ts : list ytok) : Prop :=
  forall r n, F r -> (List.length ts < n)%nat -> p n (ts ++ r) = Some (a, r).
Definition any (r : list ytok) : Prop := True.
Definition nohd (l : list ytok) (r : list ytok) : Prop := forall y, In y l -> tk y r = None.

Lemma p_val_complete s v r : D_val s v -> p_val (v ++ r) = Some (s, r).
Proof. destruct 1; reflexivity. Qed.
Lemma p_varlen_complete s v r : D_varlen s v -> p_varlen (v ++ r) = Some (s, r).
Proof. destruct 1 as [|s v []]; reflexivity. Qed.
Lemma p_item_complete i t r : D_enumitem i t -> p_item (t ++ r) = Some (i, r).
Proof. destruct 1 as [n s v []]; reflexivity. Qed.
Lemma varlen_lt s v : D_varlen s v -> exists v', v = YLt :: v'.
Proof. destruct 1; eauto. Qed.

Lemma items_parse l ts : D_enumitems l ts -> parses p_items (nohd [YComma]) l ts.
Proof.
  assert (G : forall l ts, D_enumitems l ts -> exists i l' ti ts', l = i :: l' /\ D_enumitem i ti /\
            ((l' = [] /\ ts = ti) \/ (D_enumitems l' ts' /\ ts = ti ++ YComma :: ts'))).
  { intros l0 ts0 H. induction H as [i ti Hi|l0 ts0 j tj Hl IH Hj].
    - exists i, [], ti, []. auto.
    - destruct IH as (i & l' & ti & ts' & -> & Hi & [[-> ->]|[H1 ->]]).
      + exists i, [j], ti, tj. split; [reflexivity|]. split; [exact Hi|]. right. split; [constructor; exact Hj|reflexivity].
      + exists i, (l' ++ [j]), ti, (ts' ++ YComma :: tj). split; [reflexivity|]. split; [exact Hi|]. right.
        split; [constructor; assumption|]. rewrite <- app_assoc. reflexivity. }
  remember (List.length l) as k eqn:Ek. revert l ts Ek. induction k as [|k IH]; intros l ts Ek H; destruct (G l ts H) as (i & l' & ti & ts' & -> & Hi & D);
    [discriminate|]. intros r n Hr Hn. destruct n as [|n]; [lia|]. cbn [p_items]. destruct D as [[-> ->]|[D ->]].
  - rewrite (p_item_complete _ _ _ Hi). cbn [pbind]. rewrite (Hr YComma (or_introl eq_refl)). reflexivity.
  - rewrite <- app_assoc, (p_item_complete _ _ _ Hi). cbn [pbind app tk ytok_eqb]. cbn in Ek.
    rewrite app_length in Hn. cbn in Hn. rewrite (IH l' ts' (eq_add_S _ _ Ek) D r n Hr) by lia. reflexivity.
Qed.
Lemma enumbody_parse l ts : D_enumbody l ts -> parses p_enumbody any l ts.
Proof.
  intros [l' ts' H] r n _ Hn. unfold p_enumbody. cbn [app]. rewrite tk_here. cbn [pbind]. cbn in Hn. rewrite app_length in Hn.
  rewrite <- app_assoc, (items_parse _ _ H); [cbn [pbind app]; rewrite tk_here; reflexivity| |lia].
  intros y [<-|[]]. reflexivity.
Qed.
Lemma caselist_hd l ts : D_caselist l ts -> exists ts', ts = KWCASE :: ts'.
Proof. induction 1 as [|l ts s v H [ts' ->]]; cbn; eauto. Qed.
Lemma caselist_parse l ts : D_caselist l ts -> parses p_caselist (nohd [KWCASE]) l ts.
Proof.
  assert (G : forall l ts, D_caselist l ts -> exists s l' v ts', l = s :: l' /\ D_val s v /\
            ((l' = [] /\ ts = KWCASE :: v ++ [YColon]) \/ (D_caselist l' ts' /\ ts = KWCASE :: v ++ YColon :: ts'))).
  { intros l0 ts0 H. induction H as [s v Hv|l0 ts0 s v Hl IH Hv].
    - exists s, [], v, []. auto.
    - destruct IH as (i & l' & ti & ts' & -> & Hi & [[-> ->]|[H1 ->]]).
      + exists i, [s], ti, (KWCASE :: v ++ [YColon]). split; [reflexivity|]. split; [exact Hi|]. right. split; [constructor; exact Hv|].
        cbn. rewrite <- app_assoc. reflexivity.
      + exists i, (l' ++ [s]), ti, (ts' ++ KWCASE :: v ++ [YColon]). split; [reflexivity|]. split; [exact Hi|]. right.
        split; [constructor; assumption|]. cbn. rewrite <- app_assoc. reflexivity. }
  remember (List.length l) as k eqn:Ek. revert l ts Ek. induction k as [|k IH]; intros l ts Ek H; destruct (G l ts H) as (s & l' & v & ts' & -> & Hi & D);
    [discriminate|]. intros r n Hr Hn. destruct n as [|n]; [lia|]. cbn [p_caselist]. destruct D as [[-> ->]|[D ->]].
  - cbn [app]. rewrite tk_here. cbn [pbind]. rewrite <- app_assoc, (p_val_complete _ _ _ Hi). cbn [pbind app]. rewrite tk_here. cbn [pbind].
    rewrite (Hr KWCASE (or_introl eq_refl)). reflexivity.
  - cbn [app]. rewrite tk_here. cbn [pbind]. rewrite <- app_assoc, (p_val_complete _ _ _ Hi). cbn [pbind app]. rewrite tk_here. cbn [pbind].
    destruct (caselist_hd _ _ D) as [ts'' Eq]. rewrite Eq at 1. cbn [app]. rewrite tk_here. cbn in Ek, Hn. rewrite app_length in Hn. cbn in Hn.
    rewrite (IH l' ts' (eq_add_S _ _ Ek) D r n Hr) by lia. reflexivity.
Qed.

(** What can follow a typespec and a decl. *)
Definition decl_follow : list ytok -> Prop := nohd [YLBrack; YLt].
Definition ends_semi (ts : list ytok) : Prop := True.

Definition Pdecls (l : list decl) (ts : list ytok) : Prop :=
  exists tss, ts = List.concat (map (fun t => t ++ [YSemi]) tss) /\ Forall2 (parses p_decl decl_follow) l tss.
Definition Pcase (c : list string * decl) (ts : list ytok) : Prop :=
  exists tl td, ts = tl ++ td ++ [YSemi] /\ D_caselist (fst c) tl /\ parses p_decl decl_follow (snd c) td.
Definition Pcases (l : list (list string * decl)) (ts : list ytok) : Prop :=
  exists tss, ts = List.concat tss /\ Forall2 Pcase l tss.

Lemma p_decl_nohd d ts y : parses p_decl decl_follow d ts -> (forall n r, p_decl (S n) (y :: r) = None) ->
  forall r, tk y (ts ++ YSemi :: r) = None.
Proof.
  intros H Hy r. destruct (tk y (ts ++ YSemi :: r)) as [r'|] eqn:E; [|reflexivity]. apply tk_some in E.
  assert (K := H (YSemi :: r) (S (List.length ts))). rewrite E, Hy in K.
  assert (decl_follow (YSemi :: r)) by (intros z [<-|[<-|[]]]; reflexivity).
  specialize (K H0 ltac:(lia)). discriminate.
Qed.
Lemma p_decl_none y n r : In y [YRBrace; KWCASE; KWDEFAULT] -> p_decl n (y :: r) = None.
Proof. intros [<-|[<-|[<-|[]]]]; destruct n as [|[|n]]; reflexivity. Qed.
Lemma semi_follow r : decl_follow (YSemi :: r).
Proof. intros z [<-|[<-|[]]]; reflexivity. Qed.

Lemma decls_parse l ts : Pdecls l ts -> forall r n, (List.length ts < n)%nat -> p_decls n (ts ++ YRBrace :: r) = Some (l, YRBrace :: r).
Proof.
  intros (tss & -> & F). induction F as [|d t l tss Hd F IH]; intros r n Hn; (destruct n as [|n]; [lia|]); cbn [p_decls].
  - cbn. rewrite p_decl_none by (left; reflexivity). reflexivity.
  - cbn [map List.concat] in *. rewrite !app_length in Hn. cbn in Hn. rewrite <- !app_assoc. cbn [app].
    rewrite (Hd _ n (semi_follow _)) by lia. rewrite tk_here. cbn [pbind]. rewrite IH by lia. reflexivity.
Qed.
Lemma cases_parse l ts : Pcases l ts -> forall r n, tk KWCASE r = None -> (List.length ts < n)%nat -> p_cases n (ts ++ r) = Some (l, r).
Proof.
  intros (tss & -> & F). induction F as [|c t l tss Hc F IH]; intros r n Hr Hn; (destruct n as [|n]; [lia|]); cbn [p_cases].
  - cbn. rewrite Hr. reflexivity.
  - destruct Hc as (tl & td & -> & Hl & Hd). cbn [List.concat] in *. rewrite !app_length in Hn. cbn in Hn.
    destruct (caselist_hd _ _ Hl) as [tl' Et]. rewrite <- !app_assoc. rewrite Et at 1. cbn [app]. rewrite tk_here.
    rewrite (caselist_parse _ _ Hl); [|intros y [<-|[]]|lia].
    2:{ apply p_decl_nohd with (d := snd c); [exact Hd|]. intros. apply p_decl_none. auto with datatypes. }
    cbn [pbind]. rewrite (Hd _ n (semi_follow _)) by lia. cbn [pbind]. rewrite tk_here. cbn [pbind]. rewrite IH by (assumption || lia).
    cbn [pbind]. destruct c. reflexivity.
Qed.

Definition Pubody (s : decl) (c : list (list string * decl)) (d : option decl) (ts : list ytok) : Prop :=
  forall r n, (List.length ts < n)%nat -> p_unionbody n (ts ++ r) = Some (s, c, d, r).
Definition Pcdef (c : list (list string * decl)) (d : option decl) (ts : list ytok) : Prop :=
  match d with
  | None => Pcases c ts
  | Some d => exists tc td, ts = tc ++ KWDEFAULT :: YColon :: td ++ [YSemi] /\ Pcases c tc /\ parses p_decl decl_follow d td
  end.

Lemma p_complete :
  (forall t ts, D_typespec t ts -> parses p_typespec any t ts) /\
  (forall d ts, D_decl d ts -> parses p_decl decl_follow d ts) /\
  (forall l ts, D_structbody l ts -> parses p_structbody any l ts) /\
  (forall l ts, D_structdecls l ts -> Pdecls l ts) /\
  (forall s c d ts, D_unionbody s c d ts -> Pubody s c d ts) /\
  (forall c d ts, D_unioncasesdef c d ts -> Pcdef c d ts) /\
  (forall l ts, D_unioncases l ts -> Pcases l ts) /\
  (forall c ts, D_unioncase c ts -> Pcase c ts).
Proof.
  apply D_mutind.
  - intros u ts [] r n _ Hn; (destruct n as [|n]; [lia|]); reflexivity.
  - intros u ts [] r n _ Hn; (destruct n as [|n]; [lia|]); reflexivity.
  - intros r n _ Hn; (destruct n as [|n]; [lia|]); reflexivity.
  - intros r n _ Hn; (destruct n as [|n]; [lia|]); reflexivity.
  - intros r n _ Hn; (destruct n as [|n]; [lia|]); reflexivity.
  - intros r n _ Hn; (destruct n as [|n]; [lia|]); reflexivity.
  - intros l ts H r n _ Hn. destruct n as [|n]; [lia|]. cbn [p_typespec app]. cbn in Hn. rewrite (enumbody_parse _ _ H); [reflexivity|exact I|lia].
  - intros l ts _ H r n _ Hn. destruct n as [|n]; [lia|]. cbn [p_typespec app]. cbn in Hn. rewrite H; [reflexivity|exact I|lia].
  - intros s c d ts _ H r n _ Hn. destruct n as [|n]; [lia|]. cbn [p_typespec app]. cbn in Hn. rewrite H by lia. reflexivity.
  - intros x r n _ Hn; (destruct n as [|n]; [lia|]); reflexivity.
  - intros t ts x _ H r n Hr Hn. destruct n as [|n]; [lia|]. cbn [p_decl]. rewrite app_length in Hn. cbn in Hn.
    rewrite <- app_assoc, H by (exact I || lia). cbn [app tk ytok_eqb p_id pbind]. rewrite (Hr YLBrack), (Hr YLt) by auto with datatypes. reflexivity.
  - intros t ts x s v _ H Hv r n Hr Hn. destruct n as [|n]; [lia|]. cbn [p_decl]. rewrite app_length in Hn. cbn in Hn.
    rewrite <- app_assoc, H by (exact I || lia). cbn [app tk ytok_eqb p_id pbind]. rewrite <- app_assoc, (p_val_complete _ _ _ Hv).
    cbn [app tk ytok_eqb pbind]. reflexivity.
  - intros t ts x s v _ H Hv r n Hr Hn. destruct n as [|n]; [lia|]. cbn [p_decl]. rewrite app_length in Hn. cbn in Hn.
    rewrite <- app_assoc, H by (exact I || lia). pose proof (p_varlen_complete _ _ r Hv) as K. destruct (varlen_lt _ _ Hv) as [v' ->].
    cbn [app tk ytok_eqb p_id pbind] in *. rewrite K. reflexivity.
  - intros x s v Hv r n Hr Hn. destruct n as [|[|n]]; [lia|cbn in Hn; lia|]. cbn [p_decl p_typespec app p_id pbind tk ytok_eqb].
    rewrite <- app_assoc, (p_val_complete _ _ _ Hv). reflexivity.
  - intros x s v Hv r n Hr Hn. destruct n as [|[|n]]; [lia|cbn in Hn; lia|]. cbn [p_decl p_typespec app p_id pbind].
    pose proof (p_varlen_complete _ _ r Hv) as K. destruct (varlen_lt _ _ Hv) as [v' ->]. cbn [app tk ytok_eqb] in *. rewrite K. reflexivity.
  - intros x s v Hv r n Hr Hn. destruct n as [|[|n]]; [lia|cbn in Hn; lia|]. cbn [p_decl p_typespec app p_id pbind].
    rewrite (p_varlen_complete _ _ _ Hv). reflexivity.
  - intros t ts x _ H r n Hr Hn. destruct n as [|n]; [lia|]. cbn [p_decl]. rewrite app_length in Hn. cbn in Hn.
    rewrite <- app_assoc, H by (exact I || lia). reflexivity.
  - intros r n Hr Hn. destruct n as [|[|n]]; [lia|cbn in Hn; lia|]. reflexivity.
  - intros l ts _ H r n _ Hn. destruct n as [|n]; [lia|]. cbn [p_structbody app]. rewrite tk_here. cbn [pbind].
    cbn in Hn. rewrite app_length in Hn. rewrite <- app_assoc. cbn [app]. rewrite (decls_parse _ _ H) by lia. cbn [pbind]. rewrite tk_here. reflexivity.
  - exists []. split; [reflexivity|constructor].
  - intros l ts d ts' _ (tss & -> & F) _ Hd. exists (tss ++ [ts']). split; [rewrite map_app, concat_app; cbn; rewrite app_nil_r; reflexivity|].
    apply Forall2_app; [exact F|]. constructor; [exact Hd|constructor].
  - intros s ts c d ts' _ H _ Hc r n Hn. destruct n as [|n]; [lia|]. cbn [p_unionbody]. cbn in Hn. rewrite app_length in Hn. cbn in Hn. rewrite app_length in Hn.
    cbn [app]. rewrite !tk_here. cbn [pbind]. rewrite tk_here. cbn [pbind]. rewrite <- !app_assoc.
    rewrite H by (try (intros z [<-|[<-|[]]]; reflexivity); lia). cbn [pbind app]. rewrite tk_here. cbn [pbind]. rewrite tk_here. cbn [pbind].
    destruct d as [d|]; cbn [Pcdef] in Hc.
    + destruct Hc as (tc & td & -> & Hc & Hd). rewrite !app_length in Hn. cbn in Hn. rewrite !app_length in Hn. rewrite <- !app_assoc. cbn [app].
      rewrite (cases_parse _ _ Hc) by (reflexivity || lia). cbn [pbind]. rewrite tk_here, tk_here. cbn [pbind]. rewrite <- !app_assoc. cbn [app].
      rewrite (Hd _ n (semi_follow _)) by lia. cbn [pbind]. rewrite tk_here. cbn [pbind]. rewrite tk_here. reflexivity.
    + rewrite <- !app_assoc. rewrite (cases_parse _ _ Hc) by (reflexivity || lia). cbn [pbind app]. cbn [tk ytok_eqb]. reflexivity.
  - intros c ts _ H. exact H.
  - intros c ts d ts' _ H _ Hd. exists ts, ts'. auto.
  - exists []. split; [reflexivity|constructor].
  - intros l ts c ts' _ (tss & -> & F) _ Hc. exists (tss ++ [ts']). split; [rewrite concat_app; cbn; rewrite app_nil_r; reflexivity|].
    apply Forall2_app; [exact F|]. constructor; [exact Hc|constructor].
  - intros l ts d ts' Hl _ Hd. exists ts, ts'. auto.
Qed.

Definition D1 := proj1 p_complete.
Lemma opt_parse o ts : D_typespecopt o ts -> parses p_opt any o ts.
Proof.
  intros [|t ts' H] r n _ Hn; unfold p_opt; [reflexivity|].
  assert (K := D1 _ _ H r n I Hn). destruct (tk KWVOID (ts' ++ r)) as [r'|] eqn:E; [|rewrite K; reflexivity].
  apply tk_some in E. rewrite E in K. destruct n as [|n]; discriminate.
Qed.
Lemma p_eq_complete c r : p_eq (YEq :: CONST c :: YSemi :: r) = Some (c, r).
Proof. reflexivity. Qed.
Lemma call_parse c ts : D_progcall c ts -> forall r n, (List.length ts <= n)%nat -> p_call n (ts ++ r) = Some (c, r).
Proof.
  intros [res tr x a ta id Hr Ha] r n Hn. unfold p_call. rewrite app_length in Hn. cbn in Hn. rewrite app_length in Hn.
  rewrite <- app_assoc, (opt_parse _ _ Hr) by (exact I || lia). cbn [pbind app p_id]. rewrite tk_here. cbn [pbind].
  rewrite <- app_assoc, (opt_parse _ _ Ha) by (exact I || lia). reflexivity.
Qed.
Lemma opt_nohd o ts : D_typespecopt o ts -> forall r, tk YRBrace (ts ++ r) = None.
Proof.
  intros H r. destruct (tk YRBrace (ts ++ r)) as [r'|] eqn:E; [|reflexivity]. apply tk_some in E.
  assert (K := opt_parse _ _ H r (S (List.length ts)) I ltac:(lia)). rewrite E in K. discriminate.
Qed.
Lemma call_nohd c ts : D_progcall c ts -> forall r, tk YRBrace (ts ++ r) = None.
Proof. intros [res tr x a ta id Hr Ha] r. rewrite <- app_assoc. apply (opt_nohd _ _ Hr). Qed.
Lemma calls_parse l ts : D_progcalls l ts -> forall r n, (List.length ts < n)%nat -> p_calls n (ts ++ YRBrace :: r) = Some (l, YRBrace :: r).
Proof.
  intros H. assert (G : exists tss, ts = List.concat tss /\ Forall2 D_progcall l tss).
  { induction H as [|l ts c tc H (tss & -> & F) Hc]; [exists []; split; [reflexivity|constructor]|].
    exists (tss ++ [tc]). split; [rewrite concat_app; cbn; rewrite app_nil_r; reflexivity|]. apply Forall2_app; [exact F|]. constructor; [exact Hc|constructor]. }
  clear H. destruct G as (tss & -> & F). induction F as [|c t l tss Hc F IH]; intros r n Hn; (destruct n as [|n]; [lia|]); cbn [p_calls]; [reflexivity|].
  cbn [List.concat] in *. rewrite app_length in Hn. rewrite <- app_assoc, (call_nohd _ _ Hc).
  assert (Ht : (0 < List.length t)%nat) by (destruct Hc; rewrite app_length; cbn; lia).
  rewrite (call_parse _ _ Hc) by lia. cbn [pbind]. rewrite IH by lia. reflexivity.
Qed.
Lemma ver_parse c ts : D_progver c ts -> forall r n, (List.length ts <= n)%nat -> p_ver n (ts ++ r) = Some (c, r).
Proof.
  intros [x l ts' c' H] r n Hn. unfold p_ver. cbn in Hn. rewrite app_length in Hn. cbn [app]. rewrite tk_here. cbn [pbind p_id]. rewrite tk_here. cbn [pbind].
  rewrite <- app_assoc. cbn [app]. rewrite (calls_parse _ _ H) by lia. reflexivity.
Qed.
Lemma vers_parse l ts : D_progvers l ts -> forall r n, (List.length ts < n)%nat -> p_vers n (ts ++ YRBrace :: r) = Some (l, YRBrace :: r).
Proof.
  intros H. assert (G : exists tss, ts = List.concat tss /\ Forall2 D_progver l tss).
  { induction H as [|l ts c tc H (tss & -> & F) Hc]; [exists []; split; [reflexivity|constructor]|].
    exists (tss ++ [tc]). split; [rewrite concat_app; cbn; rewrite app_nil_r; reflexivity|]. apply Forall2_app; [exact F|]. constructor; [exact Hc|constructor]. }
  clear H. destruct G as (tss & -> & F). induction F as [|c t l tss Hc F IH]; intros r n Hn; (destruct n as [|n]; [lia|]); cbn [p_vers]; [reflexivity|].
  cbn [List.concat] in *. rewrite app_length in Hn. rewrite <- app_assoc.
  assert (Ht : tk YRBrace (t ++ List.concat tss ++ YRBrace :: r) = None) by (destruct Hc; reflexivity). rewrite Ht.
  assert (Hl : (0 < List.length t)%nat) by (destruct Hc; cbn; lia).
  rewrite (ver_parse _ _ Hc) by lia. cbn [pbind]. rewrite IH by lia. reflexivity.
Qed.
Lemma defn_parse d ts : D_defn d ts -> forall r n, (List.length ts <= n)%nat -> p_defn n (ts ++ r) = Some (d, r).
Proof.
  destruct p_complete as (C1 & C2 & C3 & C4 & C5 & C6 & C7 & C8).
  intros [d' ts' H|x l ts' H|x l ts' H|x s c d' ts' H|x c|x l ts' c H] r n Hn; cbn in Hn; rewrite ?app_length in Hn; cbn in Hn; cbn [p_defn app p_id pbind].
  - rewrite <- app_assoc. cbn [app]. rewrite (C2 _ _ H _ n (semi_follow _)) by lia. reflexivity.
  - rewrite <- app_assoc. rewrite (enumbody_parse _ _ H) by (exact I || lia). reflexivity.
  - rewrite <- app_assoc. rewrite (C3 _ _ H) by (exact I || lia). reflexivity.
  - rewrite <- app_assoc. rewrite (C5 _ _ _ _ H) by lia. reflexivity.
  - reflexivity.
  - rewrite tk_here. cbn [pbind]. rewrite <- app_assoc. cbn [app]. rewrite (vers_parse _ _ H) by lia. reflexivity.
Qed.
Lemma spec_parse l ts : D_spec l ts -> forall n, (List.length ts < n)%nat -> p_spec n ts = Some l.
Proof.
  intros H. assert (G : exists tss, ts = List.concat tss /\ Forall2 D_defn l tss).
  { induction H as [|l ts c tc H (tss & -> & F) Hc]; [exists []; split; [reflexivity|constructor]|].
    exists (tss ++ [tc]). split; [rewrite concat_app; cbn; rewrite app_nil_r; reflexivity|]. apply Forall2_app; [exact F|]. constructor; [exact Hc|constructor]. }
  clear H. destruct G as (tss & -> & F). induction F as [|c t l tss Hc F IH]; intros n Hn; (destruct n as [|n]; [lia|]); [reflexivity|].
  cbn [List.concat] in *. rewrite app_length in Hn.
  assert (Hl : (0 < List.length t)%nat) by (destruct Hc; cbn; lia). cbn [p_spec].
  destruct (t ++ List.concat tss) as [|y ys] eqn:E; [destruct t; cbn in *; [lia|discriminate]|]. rewrite <- E.
  rewrite (defn_parse _ _ Hc) by lia. cbn [pbind]. rewrite IH by lia. reflexivity.
Qed.

Theorem parse_iff ts l : parse ts = Some l <-> D_spec l ts.
Proof.
  split; [apply p_spec_sound|]. intros H. apply (spec_parse _ _ H). lia.
Qed.
Theorem spec_unique l l' ts : D_spec l ts -> D_spec l' ts -> l = l'.
Proof. intros H H'. apply parse_iff in H. apply parse_iff in H'. congruence. Qed.
