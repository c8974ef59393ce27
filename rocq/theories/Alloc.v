(** Memory allocated while decoding: Interp.v's interpreter instrumented with a log of the
    [make]/[new]/[string(...)] operations it executes.  Not counted: the fixed-size
    scratch buffers of lib.go (at most 8 bytes each) and the growth of the write buffer. *)
From Verif Require Import Bytes XdrLib Types Interp Spec Prim Meta Enc Dec Total Canon Local Runs Codec.
Open Scope string_scope.
Open Scope Z_scope.
Open Scope list_scope.

Inductive alloc : Type :=
| AElems (max : option Z) (n : Z)   (* out.go:81 make([]T, n) for a field declared T<max> *)
| ANew                              (* out.go:158 new(T) *)
| ABytes (n : Z).                   (* lib.go:267 string(b) *)

(** The allocation of a string decode (lib.go:255-267). *)
Definition string_alloc (xs : xst) (maxlen : Z) : list alloc :=
  if Decoding xs then
    let '(xs1, szbuf) := xdrRW xs (zeros 4) in
    let sz := get_u32 szbuf in
    if ((maxlen >=? 0) && (sz >? maxlen)) || (sz <? 0) then []
    else match snd (xdrR xs1 sz) with Some b => [ABytes (zlen b)] | None => [] end
  else [].

Definition on_fieldA (X : xst -> val -> outcome (xst * val * list alloc)) (s : xst) (v : val) (f : string)
  : outcome (xst * val * list alloc) :=
  match v with
  | VStruct l =>
      match lookup f l with
      | Some x => '(s', x', a) <- X s x ;; Ret (s', VStruct (update f x' l), a)
      | None => Panic
      end
  | _ => Panic
  end.

Fixpoint xdr_fieldsA (X : cty -> xst -> val -> outcome (xst * val * list alloc))
    (fs : list (string * cty)) (s : xst) (v : val) : outcome (xst * val * list alloc) :=
  match fs with
  | [] => Ret (s, v, [])
  | (f, t) :: fs =>
      '(s1, v1, a1) <- on_fieldA (X t) s v f ;;
      '(s2, v2, a2) <- xdr_fieldsA X fs s1 v1 ;; Ret (s2, v2, a1 ++ a2)
  end.

Fixpoint xdr_elemsA (X : xst -> val -> outcome (xst * val * list alloc)) (k : nat) (l : list val) (s : xst)
  : outcome (xst * list val * list alloc) :=
  match k with
  | O => Ret (s, l, [])
  | S k =>
      match l with
      | [] => Panic
      | x :: l =>
          '(s1, x1, a1) <- X s x ;;
          '(s2, l2, a2) <- xdr_elemsA X k l s1 ;;
          Ret (s2, x1 :: l2, a1 ++ a2)
      end
  end.

(** Interp.v [xdr] with the log; cases as there. *)
Fixpoint xdrA (n : nat) (E : env) (t : cty) (s : xst) (v : val) : outcome (xst * val * list alloc) :=
  match n with
  | O => NoFuel
  | S n =>
      match t, v with
      | CString m, VStr bs =>
          let '(s', bs') := XdrString s (maxlen_of m) bs in
          Ret (s', VStr bs', string_alloc s (maxlen_of m))
      | CVarArray m te, VSlice o =>
          let '(s1, sz0) := EncodingSetSize s 0 (zlen (elems o)) in
          let '(s2, sz) := XdrU32 s1 sz0 in
          if match m with Some k => sz >? k | None => false end
          then Ret (SetError s2 "array too large", VSlice o, [])
          else if Decoding s2 then
            match zero n E te with
            | None => NoFuel
            | Some z =>
                '(s3, l3, a3) <- xdr_elemsA (xdrA n E te) (Z.to_nat sz) (repeat z (Z.to_nat sz)) s2 ;;
                Ret (s3, VSlice (Some l3), AElems m sz :: a3)
            end
          else
            '(s3, l3, a3) <- xdr_elemsA (xdrA n E te) (Z.to_nat sz) (elems o) s2 ;;
            Ret (s3, VSlice (match o with Some _ => Some l3 | None => None end), a3)
      | CPtr te, VPtr o =>
          '(s1, o1, a1) <-
            (if Encoding s then
               let opted := match o with Some _ => true | None => false end in
               let '(s1, opted) := XdrBool s opted in
               if opted then
                 match o with
                 | Some x => '(s2, x2, a2) <- xdrA n E te s1 x ;; Ret (s2, Some x2, a2)
                 | None => Panic
                 end
               else Ret (s1, o, [])
             else Ret (s, o, [])) ;;
          if Decoding s1 then
            let '(s2, opted) := XdrBool s1 false in
            if opted then
              match zero n E te with
              | None => NoFuel
              | Some z =>
                  '(s3, x3, a3) <- xdrA n E te s2 z ;; Ret (s3, VPtr (Some x3), a1 ++ ANew :: a3)
              end
            else Ret (s2, VPtr o1, a1)
          else Ret (s1, VPtr o1, a1)
      | CStruct fs, VStruct _ => xdr_fieldsA (xdrA n E) fs s v
      | CUnion sw st arms def, VStruct _ =>
          '(s1, v1, a1) <- on_fieldA (xdrA n E st) s v sw ;;
          match field_disc v1 sw with
          | None => Panic
          | Some d =>
              match pick_arm d arms def with
              | Some (Some (f, t)) =>
                  '(s2, v2, a2) <- on_fieldA (xdrA n E t) s1 v1 f ;; Ret (s2, v2, a1 ++ a2)
              | _ => Ret (s1, v1, a1)
              end
          end
      | CIdent x, _ =>
          match lookup x E with
          | Some t => xdrA n E t s v
          | None => Panic
          end
      | CU32, VInt _ | CS32, VInt _ | CU64, VInt _ | CS64, VInt _ | CBool, VBool _
      | COpaque _, VArr _ | CVarOpaque _, VBytes _ =>
          '(s', v') <- xdr (S n) E t s v ;; Ret (s', v', [])
      | _, _ => Panic
      end
  end.

(** ** The log changes nothing *)
Definition forget {A B} (o : outcome (A * B * list alloc)) : outcome (A * B) :=
  '(s, v, _) <- o ;; Ret (s, v).

Lemma forget_ret {A B} (o : outcome (A * B * list alloc)) s v :
  forget o = Ret (s, v) <-> exists a, o = Ret (s, v, a).
Proof.
  destruct o as [[[s0 v0] a]| |]; cbn; split; intros H; try discriminate;
    try (destruct H; discriminate).
  - injection H as -> ->. eauto.
  - destruct H as [a' [= -> -> _]]. reflexivity.
Qed.

Lemma forget_field X Y s v f : (forall s v, forget (X s v) = Y s v) ->
  forget (on_fieldA X s v f) = on_field Y s v f.
Proof.
  intros H. unfold on_field, on_fieldA. destruct v; try reflexivity.
  destruct (lookup f l) as [x|]; [|reflexivity]. rewrite <- H.
  destruct (X s x) as [[[s1 v1] a]| |]; reflexivity.
Qed.

Lemma forget_fields X Y fs s v : (forall t s v, forget (X t s v) = Y t s v) ->
  forget (xdr_fieldsA X fs s v) = xdr_fields Y fs s v.
Proof.
  intros H. revert s v. induction fs as [|[f t] fs IH]; cbn; intros s v; [reflexivity|].
  rewrite <- (forget_field (X t) (Y t)) by apply H.
  destruct (on_fieldA (X t) s v f) as [[[s1 v1] a]| |]; cbn; [|reflexivity|reflexivity].
  rewrite <- IH. destruct (xdr_fieldsA X fs s1 v1) as [[[s2 v2] a2]| |]; reflexivity.
Qed.

Lemma forget_elems X Y k l s : (forall s v, forget (X s v) = Y s v) ->
  forget (xdr_elemsA X k l s) = xdr_elems Y k l s.
Proof.
  intros H. revert l s. induction k as [|k IH]; cbn; intros l s; [reflexivity|].
  destruct l as [|x l]; [reflexivity|]. rewrite <- H.
  destruct (X s x) as [[[s1 v1] a]| |]; cbn; [|reflexivity|reflexivity].
  rewrite <- IH. destruct (xdr_elemsA X k l s1) as [[[s2 v2] a2]| |]; reflexivity.
Qed.

Theorem xdrA_erase n E t s v : forget (xdrA n E t s v) = xdr n E t s v.
Proof.
  revert t s v. induction n as [|n IH]; intros t s v; [reflexivity|].
  assert (P : forall o : outcome (xst * val),
     forget ('(s', v') <- o ;; Ret (s', v', [])) = o).
  { intros [[s1 v1]| |]; reflexivity. }
  destruct t, v; try reflexivity; try apply P;
    try (cbn [xdr xdrA]; destruct (lookup x E); [apply IH|reflexivity]).
  - cbn [xdr xdrA]. destruct (XdrString s (maxlen_of max) bs). reflexivity.
  - cbn [xdr xdrA]. destruct (EncodingSetSize s 0 (zlen (elems o))) as [s1 sz0].
    destruct (XdrU32 s1 sz0) as [s2 sz].
    destruct (match max with Some k => sz >? k | None => false end); [reflexivity|].
    destruct (Decoding s2).
    + destruct (zero n E t) as [z|]; [|reflexivity].
      rewrite <- (forget_elems (xdrA n E t)) by apply IH.
      destruct (xdr_elemsA _ _ _ s2) as [[[s3 l3] a3]| |]; reflexivity.
    + rewrite <- (forget_elems (xdrA n E t)) by apply IH.
      destruct (xdr_elemsA _ _ _ s2) as [[[s3 l3] a3]| |]; reflexivity.
  - cbn [xdr xdrA].
    assert (K : forall (p : outcome (xst * option val * list alloc)) q, forget p = q ->
      forget ('(s1, o1, a1) <- p ;;
          if Decoding s1 then
            let '(s2, opted) := XdrBool s1 false in
            if opted then
              match zero n E t with
              | None => NoFuel
              | Some z =>
                  '(s3, x3, a3) <- xdrA n E t s2 z ;; Ret (s3, VPtr (Some x3), a1 ++ ANew :: a3)
              end
            else Ret (s2, VPtr o1, a1)
          else Ret (s1, VPtr o1, a1)) =
      ('(s1, o1) <- q ;;
          if Decoding s1 then
            let '(s2, opted) := XdrBool s1 false in
            if opted then
              match zero n E t with
              | None => NoFuel
              | Some z => '(s3, x3) <- xdr n E t s2 z ;; Ret (s3, VPtr (Some x3))
              end
            else Ret (s2, VPtr o1)
          else Ret (s1, VPtr o1))).
    { intros p q <-. destruct p as [[[s1 o1] a1]| |]; cbn; [|reflexivity|reflexivity].
      destruct (Decoding s1); [|reflexivity]. destruct (XdrBool s1 false) as [s2 [|]]; [|reflexivity].
      destruct (zero n E t) as [z|]; [|reflexivity]. rewrite <- IH.
      destruct (xdrA n E t s2 z) as [[[s3 x3] a3]| |]; reflexivity. }
    apply K. destruct (Encoding s); [|reflexivity].
    destruct (XdrBool s _) as [s1 [|]]; [|reflexivity].
    destruct o as [x|]; [|reflexivity]. rewrite <- IH.
    destruct (xdrA n E t s1 x) as [[[s2 x2] a2]| |]; reflexivity.
  - cbn [xdr xdrA]. apply forget_fields. exact IH.
  - cbn [xdr xdrA]. rewrite <- (forget_field (xdrA n E t)) by apply IH.
    destruct (on_fieldA (xdrA n E t) s (VStruct l) sw) as [[[s1 v1] a1]| |]; cbn [obind forget];
      [|reflexivity|reflexivity].
    destruct (field_disc v1 sw) as [d|]; [|reflexivity].
    destruct (pick_arm d arms def) as [[[f u]|]|]; try reflexivity.
    rewrite <- (forget_field (xdrA n E u)) by apply IH.
    destruct (on_fieldA (xdrA n E u) s1 v1 f) as [[[s2 v2] a2]| |]; reflexivity.
Qed.

(** ** Bounds *)
Fixpoint str_bytes (a : list alloc) : Z :=
  match a with
  | [] => 0
  | ABytes n :: a => n + str_bytes a
  | _ :: a => str_bytes a
  end.

Definition alloc_ok (a : alloc) : Prop :=
  match a with
  | AElems (Some k) n => 0 <= n <= k /\ n < 2 ^ 32
  | AElems None n => 0 <= n < 2 ^ 32
  | ANew => True
  | ABytes n => 0 <= n
  end.

(** What the log may cost for moving a reader from [s] to [s']. *)
Definition cost_ok (s s' : xst) (a : list alloc) : Prop :=
  Forall alloc_ok a /\ 4 * zlen a + str_bytes a <= zlen (x_buf s) - zlen (x_buf s').

Definition acost (X : xst -> val -> outcome (xst * val * list alloc)) : Prop :=
  forall s v s' v' a, x_reader s = true -> X s v = Ret (s', v', a) ->
  x_reader s' = true /\ cost_ok s s' a.

Lemma shape_cost s s' : x_reader s = true -> shape s s' -> x_reader s' = true /\ cost_ok s s' [].
Proof.
  intros Hr [H1 H2]. split; [congruence|]. split; [constructor|].
  rewrite Hr in H2. destruct H2 as [w ->]. rewrite zlen_app. change (zlen (@nil alloc)) with 0. cbn [str_bytes].
  pose proof (zlen_nonneg w). lia.
Qed.

Lemma str_bytes_app a b : str_bytes (a ++ b) = str_bytes a + str_bytes b.
Proof. induction a as [|[] a IH]; cbn; lia. Qed.

Lemma cost_app s1 s2 s3 a b : cost_ok s1 s2 a -> cost_ok s2 s3 b -> cost_ok s1 s3 (a ++ b).
Proof.
  intros [H1 H2] [H3 H4]. split; [apply Forall_app; auto|].
  rewrite zlen_app, str_bytes_app. lia.
Qed.

Lemma acost_field X f : acost X -> acost (fun s v => on_fieldA X s v f).
Proof.
  intros HX s v s' v' a Hr H. unfold on_fieldA in H. destruct v; try discriminate.
  destruct (lookup f l) as [x|]; [|discriminate].
  destruct (X s x) as [[[s1 x1] a1]| |] eqn:Ex; cbn in H; try discriminate.
  injection H as <- <- <-. eauto.
Qed.

Lemma acost_fields X fs : (forall t, acost (X t)) -> acost (xdr_fieldsA X fs).
Proof.
  intros HX. induction fs as [|[f t] fs IH]; intros s v s' v' a Hr H; cbn in H.
  - injection H as <- <- <-. apply shape_cost; auto.
  - destruct (on_fieldA (X t) s v f) as [[[s1 x1] a1]| |] eqn:Ex; cbn in H; try discriminate.
    destruct (xdr_fieldsA X fs s1 x1) as [[[s2 x2] a2]| |] eqn:Ex2; cbn in H; try discriminate.
    injection H as <- <- <-.
    destruct (acost_field _ f (HX t) _ _ _ _ _ Hr Ex) as [Hr1 H1].
    destruct (IH _ _ _ _ _ Hr1 Ex2) as [Hr2 H2]. split; [exact Hr2|]. eapply cost_app; eauto.
Qed.

Lemma acost_elems X k l s s' l' a : acost X -> x_reader s = true ->
  xdr_elemsA X k l s = Ret (s', l', a) -> x_reader s' = true /\ cost_ok s s' a.
Proof.
  intros HX. revert l s s' l' a. induction k as [|k IH]; intros l s s' l' a Hr H; cbn in H.
  - injection H as <- <- <-. apply shape_cost; auto.
  - destruct l as [|x l]; [discriminate|].
    destruct (X s x) as [[[s1 x1] a1]| |] eqn:Ex; cbn in H; try discriminate.
    destruct (xdr_elemsA X k l s1) as [[[s2 x2] a2]| |] eqn:Ex2; cbn in H; try discriminate.
    injection H as <- <- <-.
    destruct (HX _ _ _ _ _ Hr Ex) as [Hr1 H1].
    destruct (IH _ _ _ _ _ Hr1 Ex2) as [Hr2 H2]. split; [exact Hr2|]. eapply cost_app; eauto.
Qed.

(** A 4-byte header that was read without error was consumed. *)
Lemma U32_cost s z s' z' : x_reader s = true -> XdrU32 s z = (s', z') -> Decoding s' = true ->
  x_reader s' = true /\ 4 <= zlen (x_buf s) - zlen (x_buf s') /\ 0 <= z' < 2 ^ 32.
Proof.
  intros Hr H Hd. destruct s as [[e|] rd b]; cbn in Hr; subst rd.
  - erewrite XdrU32_err in H by reflexivity. injection H as <- <-. discriminate.
  - destruct (split_at b 4) as [Hs|(hd & r & -> & Hl)].
    + rewrite XdrU32_short in H by exact Hs. injection H as <- <-. discriminate.
    + rewrite XdrU32_R in H by exact Hl. injection H as <- <-. cbn [x_buf x_reader].
      rewrite zlen_app. assert (Hl4 : zlen hd = 4) by (unfold zlen; rewrite Hl; reflexivity). rewrite Hl4. pose proof (be_val_4 _ Hl).
      split; [reflexivity|]. split; lia.
Qed.

Lemma Bool_cost s s' : x_reader s = true -> XdrBool s false = (s', true) ->
  x_reader s' = true /\ 4 <= zlen (x_buf s) - zlen (x_buf s').
Proof.
  intros Hr H. destruct s as [[e|] rd b]; cbn in Hr; subst rd.
  - erewrite XdrBool_err in H by reflexivity. discriminate.
  - destruct (split_at b 4) as [Hs|(hd & r & -> & Hl)].
    + rewrite XdrBool_short in H by exact Hs. discriminate.
    + rewrite XdrBool_R in H by exact Hl. injection H as <- _. cbn [x_buf x_reader].
      rewrite zlen_app. assert (Hl4 : zlen hd = 4) by (unfold zlen; rewrite Hl; reflexivity). rewrite Hl4. split; [reflexivity|lia].
Qed.

Lemma string_cost s m v s' v' : x_reader s = true -> XdrString s m v = (s', v') ->
  cost_ok s s' (string_alloc s m).
Proof.
  intros Hr H. pose proof (shape_String s m v) as Hsh. rewrite H in Hsh. cbn [fst] in Hsh.
  destruct (shape_cost _ _ Hr Hsh) as [_ H0].
  unfold string_alloc. destruct (Decoding s) eqn:Hd; [|exact H0].
  destruct s as [[e|] rd b]; cbn in Hr, Hd; subst rd; [discriminate|].
  rewrite XST_R in H.
  destruct (split_at b 4) as [Hs|(hd & r & -> & Hl)].
  - rewrite xdrRW_short in * by (rewrite zeros_length; exact Hs).
    destruct (_ || _); [exact H0|].
    destruct (xdrR_err (ENotEnoughGot (zlen (zeros 4)) (zlen b)) true []
      (get_u32 (b ++ skipn (List.length b) (zeros 4)))) as [e' He'].
    rewrite He'. exact H0.
  - rewrite xdrRW_read in * by exact Hl. rewrite get_u32_val in * by exact Hl.
    destruct (_ || _); [exact H0|].
    destruct (Z.ltb_spec (zlen r) (be_val hd)) as [Hlt|Hge].
    + rewrite xdrR_short in * by exact Hlt. exact H0.
    + pose proof (be_val_4 _ Hl) as Hbv.
      destruct (split_at r (Z.to_nat (be_val hd))) as [Hs|(h & r' & -> & Hh)]; [unfold zlen in Hge; lia|].
      assert (Hz : zlen h = be_val hd) by (unfold zlen; lia).
      rewrite xdrR_ok in * by exact Hz. cbn [snd bytes_of] in *.
      pose proof (shape_xdrRW (RD r') (pad_make (List.length h))) as [_ Hsuf].
      revert H Hsuf. generalize (fst (xdrRW (RD r') (pad_make (List.length h)))). intros sx H Hsuf.
      injection H as <- <-. split; [constructor; [cbn; apply zlen_nonneg|constructor]|].
      change (zlen [ABytes (zlen h)]) with 1. cbn [str_bytes].
      change (suffix (x_buf sx) r') in Hsuf. destruct Hsuf as [q Hq].
      change (x_buf (RD (hd ++ h ++ r'))) with (hd ++ h ++ r').
      assert (Hl4 : zlen hd = 4) by (unfold zlen; rewrite Hl; reflexivity).
      rewrite !zlen_app, Hq, zlen_app.
      pose proof (zlen_nonneg q). lia.
Qed.

Theorem alloc_cost n E t : acost (xdrA n E t).
Proof.
  revert t. induction n as [|n IH]; intros t s v s' v' a Hr H; [discriminate|].
  assert (Hsh : shape s s').
  { apply (xdr_shape (S n) E t s v s' v'). rewrite <- xdrA_erase.
    apply forget_ret. eauto. }
  assert (P : forall t, '(s', v') <- xdr (S n) E t s v ;; Ret (s', v', []) = Ret (s', v', a) -> a = []).
  { intros t0 K. destruct (xdr (S n) E t0 s v) as [[? ?]| |]; cbn in K; congruence. }
  split; [apply (shape_cost _ _ Hr Hsh)|].
  destruct t, v; try discriminate;
    try (cbn [xdrA] in H; apply P in H; subst a; apply (shape_cost _ _ Hr Hsh));
    try (cbn [xdrA] in H; destruct (lookup x E); [|discriminate]; eapply IH; eauto).
  - cbn [xdrA] in H. destruct (XdrString s (maxlen_of max) bs) as [s1 b1] eqn:Es.
    injection H as <- <- <-. eapply string_cost; eauto.
  - cbn [xdrA] in H.
    assert (Hset : EncodingSetSize s 0 (zlen (elems o)) = (s, 0)).
    { unfold EncodingSetSize. rewrite Hr. destruct (x_err s); reflexivity. }
    rewrite Hset in H. destruct (XdrU32 s 0) as [s2 sz] eqn:Eu.
    destruct (match max with Some k => sz >? k | None => false end) eqn:Em.
    { injection H as <- <- <-. apply (shape_cost _ _ Hr Hsh). }
    destruct (Decoding s2) eqn:Ed.
    + destruct (U32_cost _ _ _ _ Hr Eu Ed) as (Hr2 & Hc & Hsz).
      destruct (zero n E t) as [z|]; [|discriminate].
      destruct (xdr_elemsA _ _ _ s2) as [[[s3 l3] a3]| |] eqn:Ee; cbn in H; try discriminate.
      injection H as <- <- <-. destruct (acost_elems _ _ _ _ _ _ _ (IH t) Hr2 Ee) as [_ [H1 H2]].
      split.
      * constructor; [|exact H1]. cbn. destruct max as [k|]; [|lia].
        rewrite Z.gtb_ltb in Em. apply Z.ltb_ge in Em. lia.
      * rewrite zlen_cons. cbn [str_bytes]. lia.
    + pose proof (shape_U32 s 0) as Hs1. rewrite Eu in Hs1. cbn [fst] in Hs1.
      destruct (shape_cost _ _ Hr Hs1) as [Hr2 H0].
      destruct (xdr_elemsA _ _ _ s2) as [[[s3 l3] a3]| |] eqn:Ee; cbn in H; try discriminate.
      injection H as <- <- <-. destruct (acost_elems _ _ _ _ _ _ _ (IH t) Hr2 Ee) as [_ H1].
      exact (cost_app _ _ _ _ _ H0 H1).
  - cbn [xdrA] in H.
    assert (He : Encoding s = false). { unfold Encoding. rewrite Hr. destruct (x_err s); reflexivity. }
    rewrite He in H. cbn [obind] in H.
    destruct (Decoding s) eqn:Ed.
    + destruct (XdrBool s false) as [s2 [|]] eqn:Eb.
      * destruct (Bool_cost _ _ Hr Eb) as [Hr2 Hc].
        destruct (zero n E t) as [z|]; [|discriminate].
        destruct (xdrA n E t s2 z) as [[[s3 x3] a3]| |] eqn:Ex; cbn in H; try discriminate.
        injection H as <- <- <-. destruct (IH _ _ _ _ _ _ Hr2 Ex) as [_ [H1 H2]].
        split; [constructor; [exact I|exact H1]|]. rewrite zlen_cons. cbn [str_bytes]. lia.
      * injection H as <- <- <-. apply (shape_cost _ _ Hr Hsh).
    + injection H as <- <- <-. apply (shape_cost _ _ Hr Hsh).
  - cbn [xdrA] in H. eapply (acost_fields (xdrA n E)); eauto.
  - cbn [xdrA] in H.
    destruct (on_fieldA (xdrA n E t) s (VStruct l) sw) as [[[s1 v1] a1]| |] eqn:E1; cbn in H; try discriminate.
    destruct (acost_field _ sw (IH t) _ _ _ _ _ Hr E1) as [Hr1 H1].
    destruct (field_disc v1 sw) as [d|]; [|discriminate].
    destruct (pick_arm d arms def) as [[[f u]|]|].
    + destruct (on_fieldA (xdrA n E u) s1 v1 f) as [[[s2 v2] a2]| |] eqn:E2; cbn in H; try discriminate.
      destruct (acost_field _ f (IH u) _ _ _ _ _ Hr1 E2) as [Hr2 H2].
      injection H as <- <- <-. eapply cost_app; eauto.
    + injection H as <- <- <-. exact H1.
    + injection H as <- <- <-. exact H1.
Qed.

(** ** Unbounded arrays: the count in the header is allocated *)
Theorem alloc_unbounded n E t hd rest o s' v' a :
  List.length hd = 4%nat ->
  xdrA n E (CVarArray None t) (MakeReader (hd ++ rest)) (VSlice o) = Ret (s', v', a) ->
  exists a', a = AElems None (be_val hd) :: a'.
Proof.
  intros Hl H. destruct n as [|n]; [discriminate|]. cbn [xdrA] in H.
  unfold EncodingSetSize, MakeReader in H. cbn [x_err x_reader] in H.
  rewrite XdrU32_R in H by exact Hl. rewrite Decoding_R in H.
  destruct (zero n E t) as [z|]; [|discriminate].
  destruct (xdr_elemsA _ _ _ (RD rest)) as [[[s3 l3] a3]| |]; cbn in H; try discriminate.
  injection H as <- <- <-. eauto.
Qed.
