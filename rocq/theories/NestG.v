(** What separates the specifications of C48 from those of C49: a variable array given inline
    inside the element of another. *)
From Coq Require Import Lia.
From Verif Require Import GoLex XLex Gram GParse Emit Bytes XdrLib Types Interp Meta GoAst GoSem GElab GSimA GSimB NestA NestB NestC NestD.
Open Scope string_scope.
Open Scope Z_scope.
Open Scope list_scope.

(** [inner dt t]: [dt] is given inline in [t], as a member, in an arm or behind an optional, at
    any depth, not through an array (the recursion of goXdr in out.go:78-90, 143-163, 271-283,
    300-335 with respect to types). *)
Inductive inner (dt : declType) : typespec -> Prop :=
| in_struct items du n : In (declName du n) items -> inner_dt dt du -> inner dt (typeStruct items)
| in_case sw cases def ls du n : In (ls, declName du n) cases -> inner_dt dt du -> inner dt (typeUnion sw cases def)
| in_default sw cases du n : inner_dt dt du -> inner dt (typeUnion sw cases (Some (declName du n)))
with inner_dt (dt : declType) : declType -> Prop :=
| in_here : inner_dt dt dt
| in_spec t : inner dt t -> inner_dt dt (declTypeTypespec t)
| in_ptr t : inner dt t -> inner_dt dt (declTypePtr t).
(** A variable array inside the element of a variable array. *)
Definition nested_in (t : declType) : Prop :=
  exists t1 sz1 t2 sz2, inner_dt (declTypeVarArray t1 sz1) t /\ inner (declTypeVarArray t2 sz2) t1.

Section K.
Variable K : list xconst.
Variable E : env.
Lemma disc_simple arr st cases : disc_ok K E st cases = true -> nok_dt K E arr st = true.
Proof.
  unfold disc_ok. destruct (el_dt K st) as [c|] eqn:A; [|discriminate]. intros H.
  destruct st as [t|t sz|t sz|sz|sz|sz|t].
  2-7: exfalso.
  2: discriminate A.
  2: change (pbind (xbound K sz) (fun m => do c <- el K t ; Some (CVarArray m c)) = Some c) in A.
  3: change (pbind (xval K sz) (fun k => if (0 <=? k) && (k <=? MaxUint32) then Some (COpaque (Z.to_nat k)) else None) = Some c) in A.
  4: change (pbind (xbound K sz) (fun m => Some (CVarOpaque m)) = Some c) in A.
  5: change (pbind (xbound K sz) (fun m => Some (CString m)) = Some c) in A.
  6: change (pbind (el K t) (fun c => Some (CPtr c)) = Some c) in A.
  2: destruct (xbound K sz); [|discriminate A]; cbn [pbind] in A; destruct (el K t); [|discriminate A]; injection A as <-; discriminate H.
  2: destruct (xval K sz) as [k|]; [|discriminate A]; cbn [pbind] in A; destruct ((0 <=? k) && (k <=? MaxUint32)); [|discriminate A]; injection A as <-; discriminate H.
  2-3: destruct (xbound K sz); [|discriminate A]; cbn [pbind] in A; injection A as <-; discriminate H.
  2: destruct (el K t); [|discriminate A]; injection A as <-; discriminate H.
  destruct t as [u|u| | | | |its|items|sw cs def|n]; try reflexivity; exfalso; cbn [el_dt el] in A.
  - match type of A with pbind ?o _ = _ => destruct o; [|discriminate] end. injection A as <-. discriminate H.
  - destruct sw as [|s n]; [discriminate|]. repeat (match type of A with pbind ?o _ = _ => destruct o; [|discriminate A]; cbn [pbind] in A end). injection A as <-. discriminate H.
Qed.
Notation nokd arr := (nok_d K E arr).
Lemma nok_struct arr items : nok K E arr (typeStruct items) = forallb (nokd arr) items.
Proof. reflexivity. Qed.
Lemma nokx_struct items : nokx K E (typeStruct items) = forallb (nokx_d K E) items.
Proof. reflexivity. Qed.
Lemma nok_union arr st n cases def : nok K E arr (typeUnion (declName st n) cases def) =
  disc_ok K E st cases && nok_dt K E arr st && forallb (fun c => nokd arr (snd c)) cases && match def with Some d => nokd arr d | None => true end.
Proof. reflexivity. Qed.
Lemma nokx_union st n cases def : nokx K E (typeUnion (declName st n) cases def) =
  disc_ok K E st cases && nokx_dt K E st && forallb (fun c => nokx_d K E (snd c)) cases && match def with Some d => nokx_d K E d | None => true end.
Proof. reflexivity. Qed.
Lemma forallb_false {A} (f : A -> bool) l : forallb f l = false -> exists a, In a l /\ f a = false.
Proof. induction l as [|a l IH]; [discriminate|]. cbn. destruct (f a) eqn:X; cbn; [intros H; destruct (IH H) as (b & I & Hb); eauto|exists a; auto]. Qed.

(** The conditions of [supported] imply those of [supportedx]. *)
Fixpoint nok_nokx (t : typespec) {struct t} : forall arr, nok K E arr t = true -> nokx K E t = true
with nok_nokx_dt (t : declType) {struct t} : forall arr, nok_dt K E arr t = true -> nokx_dt K E t = true
with nok_nokx_d (d : decl) {struct d} : forall arr, nok_d K E arr d = true -> nokx_d K E d = true.
Proof.
  - destruct t as [u|u| | | | |its|items|sw cases def|n]; intros arr H; try reflexivity.
    + rewrite nok_struct in H. rewrite nokx_struct. induction items as [|d items IH]; [reflexivity|]. cbn [forallb] in *. apply andb_true_iff in H. destruct H as (H1 & H2). rewrite (nok_nokx_d d arr H1). exact (IH H2).
    + destruct sw as [|st sn]; [discriminate|]. rewrite nok_union in H. rewrite nokx_union. apply andb_true_iff in H. destruct H as (H & H4). apply andb_true_iff in H. destruct H as (H & H3). apply andb_true_iff in H. destruct H as (H1 & H2).
      rewrite H1, (nok_nokx_dt st arr H2). cbn [andb]. apply andb_true_iff. split.
      * clear H1 H2 H4. induction cases as [|[ls d] cases IH]; [reflexivity|]. cbn [forallb snd] in *. apply andb_true_iff in H3. destruct H3 as (A & B). rewrite (nok_nokx_d d arr A). exact (IH B).
      * destruct def as [d|]; [exact (nok_nokx_d d arr H4)|reflexivity].
  - destruct t as [t|t sz|t sz|sz|sz|sz|t]; intros arr H; try exact H.
    + exact (nok_nokx t arr H).
    + cbn [nok_dt nokx_dt] in *. apply andb_true_iff in H. destruct H as (H & H2). apply andb_true_iff in H. destruct H as (_ & H1). rewrite H1. exact (nok_nokx t true H2).
    + exact (nok_nokx t arr H).
  - destruct d as [|t n]; intros arr H; [reflexivity|]. exact (nok_nokx_dt t arr H).
Qed.

Definition arr_in (t : typespec) : Prop := exists t2 sz2, inner (declTypeVarArray t2 sz2) t.
Definition arr_in_dt (t : declType) : Prop := exists t2 sz2, inner_dt (declTypeVarArray t2 sz2) t.
(** Inside the element of an array only an array is missing. *)
Fixpoint nok_in (t : typespec) {struct t} : nokx K E t = true -> nok K E true t = false -> arr_in t
with nok_in_dt (t : declType) {struct t} : nokx_dt K E t = true -> nok_dt K E true t = false -> arr_in_dt t
with nok_in_d (d : decl) {struct d} : nokx_d K E d = true -> nok_d K E true d = false -> match d with declVoid => False | declName t _ => arr_in_dt t end.
Proof.
  - destruct t as [u|u| | | | |its|items|sw cases def|n]; intros X H; try discriminate H.
    + rewrite nok_struct in H. rewrite nokx_struct in X.
      enough (exists t n, In (declName t n) items /\ arr_in_dt t) as (t & n & I & t2 & sz2 & R) by (exists t2, sz2; eapply in_struct; eassumption).
      induction items as [|d items IH]; [discriminate|]. cbn [forallb] in *. apply andb_true_iff in X. destruct X as (X1 & X2). pose proof (nok_in_d d X1) as Q. destruct (nok_d K E true d).
      * destruct (IH X2 H) as (t & n & I & R). exists t, n. split; [right; exact I|exact R].
      * specialize (Q eq_refl). destruct d as [|t n]; [destruct Q|]. exists t, n. split; [left; reflexivity|exact Q].
    + destruct sw as [|st sn]; [discriminate|]. rewrite nok_union in H. rewrite nokx_union in X. apply andb_true_iff in X. destruct X as (X & X4). apply andb_true_iff in X. destruct X as (X & X3). apply andb_true_iff in X. destruct X as (X1 & X2).
      rewrite X1, (disc_simple true st cases X1) in H. cbn [andb] in H. apply andb_false_iff in H. destruct H as [H|H].
      * enough (exists ls t n, In (ls, declName t n) cases /\ arr_in_dt t) as (ls & t & n & I & t2 & sz2 & R) by (exists t2, sz2; eapply in_case; eassumption).
        clear X1 X2 X4. induction cases as [|[ls d] cases IH]; [discriminate|]. cbn [forallb snd] in *. apply andb_true_iff in X3. destruct X3 as (A & B). pose proof (nok_in_d d A) as Q. destruct (nok_d K E true d).
        -- destruct (IH B H) as (ls' & t & n & I & R). exists ls', t, n. split; [right; exact I|exact R].
        -- specialize (Q eq_refl). destruct d as [|t n]; [destruct Q|]. exists ls, t, n. split; [left; reflexivity|exact Q].
      * destruct def as [d|]; [|discriminate]. pose proof (nok_in_d d X4 H) as Q. destruct d as [|t n]; [destruct Q|]. destruct Q as (t2 & sz2 & R). exists t2, sz2. apply in_default. exact R.
  - destruct t as [t|t sz|t sz|sz|sz|sz|t]; intros X H; try (cbn [nok_dt nokx_dt] in *; congruence).
    + destruct (nok_in t X H) as (t2 & sz2 & R). exists t2, sz2. apply in_spec. exact R.
    + exists t, sz. apply in_here.
    + destruct (nok_in t X H) as (t2 & sz2 & R). exists t2, sz2. apply in_ptr. exact R.
  - destruct d as [|t n]; intros X H; [discriminate|]. exact (nok_in_dt t X H).
Qed.
Definition nested_ts (t : typespec) : Prop := exists t1 sz1 t2 sz2, inner (declTypeVarArray t1 sz1) t /\ inner (declTypeVarArray t2 sz2) t1.
Fixpoint nok_out (t : typespec) {struct t} : nokx K E t = true -> nok K E false t = false -> nested_ts t
with nok_out_dt (t : declType) {struct t} : nokx_dt K E t = true -> nok_dt K E false t = false -> nested_in t
with nok_out_d (d : decl) {struct d} : nokx_d K E d = true -> nok_d K E false d = false -> match d with declVoid => False | declName t _ => nested_in t end.
Proof.
  - destruct t as [u|u| | | | |its|items|sw cases def|n]; intros X H; try discriminate H.
    + rewrite nok_struct in H. rewrite nokx_struct in X.
      enough (exists t n, In (declName t n) items /\ nested_in t) as (t & n & I & t1 & sz1 & t2 & sz2 & R & R2) by (exists t1, sz1, t2, sz2; split; [eapply in_struct; eassumption|exact R2]).
      induction items as [|d items IH]; [discriminate|]. cbn [forallb] in *. apply andb_true_iff in X. destruct X as (X1 & X2). pose proof (nok_out_d d X1) as Q. destruct (nok_d K E false d).
      * destruct (IH X2 H) as (t & n & I & R). exists t, n. split; [right; exact I|exact R].
      * specialize (Q eq_refl). destruct d as [|t n]; [destruct Q|]. exists t, n. split; [left; reflexivity|exact Q].
    + destruct sw as [|st sn]; [discriminate|]. rewrite nok_union in H. rewrite nokx_union in X. apply andb_true_iff in X. destruct X as (X & X4). apply andb_true_iff in X. destruct X as (X & X3). apply andb_true_iff in X. destruct X as (X1 & X2).
      rewrite X1, (disc_simple false st cases X1) in H. cbn [andb] in H. apply andb_false_iff in H. destruct H as [H|H].
      * enough (exists ls t n, In (ls, declName t n) cases /\ nested_in t) as (ls & t & n & I & t1 & sz1 & t2 & sz2 & R & R2) by (exists t1, sz1, t2, sz2; split; [eapply in_case; eassumption|exact R2]).
        clear X1 X2 X4. induction cases as [|[ls d] cases IH]; [discriminate|]. cbn [forallb snd] in *. apply andb_true_iff in X3. destruct X3 as (A & B). pose proof (nok_out_d d A) as Q. destruct (nok_d K E false d).
        -- destruct (IH B H) as (ls' & t & n & I & R). exists ls', t, n. split; [right; exact I|exact R].
        -- specialize (Q eq_refl). destruct d as [|t n]; [destruct Q|]. exists ls, t, n. split; [left; reflexivity|exact Q].
      * destruct def as [d|]; [|discriminate]. pose proof (nok_out_d d X4 H) as Q. destruct d as [|t n]; [destruct Q|]. destruct Q as (t1 & sz1 & t2 & sz2 & R & R2). exists t1, sz1, t2, sz2. split; [apply in_default; exact R|exact R2].
  - destruct t as [t|t sz|t sz|sz|sz|sz|t]; intros X H; try (cbn [nok_dt nokx_dt] in *; congruence).
    + destruct (nok_out t X H) as (t1 & sz1 & t2 & sz2 & R & R2). exists t1, sz1, t2, sz2. split; [apply in_spec; exact R|exact R2].
    + cbn [nok_dt nokx_dt negb andb] in *. apply andb_true_iff in X. destruct X as (X1 & X2). rewrite X1 in H. cbn [andb] in H. destruct (nok_in t X2 H) as (t2 & sz2 & R). exists t, sz, t2, sz2. split; [apply in_here|exact R].
    + destruct (nok_out t X H) as (t1 & sz1 & t2 & sz2 & R & R2). exists t1, sz1, t2, sz2. split; [apply in_ptr; exact R|exact R2].
  - destruct d as [|t n]; intros X H; [discriminate|]. exact (nok_out_dt t X H).
Qed.
End K.

Theorem supported_x fl ds r : supported fl ds = Some r -> supportedx fl ds = Some r.
Proof.
  unfold supported, supportedx. destruct (el_spec fl ds) as [E|]; [|discriminate]. destruct (pkg_of fl ds) as [G|]; [|discriminate]. cbn [pbind].
  destruct (forallb (nok_defn (xconsts ds) E) ds) eqn:N; [|discriminate]. cbn [andb].
  assert (forallb (nokx_defn (xconsts ds) E) ds = true) as ->; [|exact (fun H => H)]. rewrite forallb_forall in *. intros d I. specialize (N d I).
  destruct d; cbn [nok_defn nokx_defn] in *; try exact N; try (eapply nok_nokx, N); eapply nok_nokx_d, N.
Qed.
Theorem supported_or_nested fl ds r : supportedx fl ds = Some r ->
  supported fl ds = Some r \/ exists d x t p, In d ds /\ root d = Some (x, t, p) /\ nested_in t.
Proof.
  unfold supported, supportedx. destruct (el_spec fl ds) as [E|]; [|discriminate]. destruct (pkg_of fl ds) as [G|]; [|discriminate]. cbn [pbind].
  destruct (forallb (nokx_defn (xconsts ds) E) ds) eqn:X; [|discriminate]. cbn [andb]. destruct (forallb (nok_defn (xconsts ds) E) ds) eqn:N; [left; assumption|]. intros _. right.
  apply forallb_false in N. destruct N as (d & I & N). rewrite forallb_forall in X. specialize (X d I). exists d.
  destruct d as [n v|[|t n]|n items|n items|n s cs df|pd]; cbn [nok_defn nokx_defn root] in *; try congruence; try discriminate N.
  - exists (cap n), t. eexists. split; [exact I|]. split; [reflexivity|]. exact (nok_out_dt _ _ t X N).
  - exists (cap n), (declTypeTypespec (typeStruct items)). eexists. split; [exact I|]. split; [reflexivity|]. exact (nok_out_dt _ _ (declTypeTypespec (typeStruct items)) X N).
  - exists (cap n), (declTypeTypespec (typeUnion s cs df)). eexists. split; [exact I|]. split; [reflexivity|]. exact (nok_out_dt _ _ (declTypeTypespec (typeUnion s cs df)) X N).
Qed.
