(** Types without arrays and pointers: their codecs need a fixed amount of fuel and return on every
    value of the type's shape. *)
From Verif Require Import Bytes XdrLib Types Interp HeapX.
Open Scope string_scope.
Open Scope Z_scope.
Open Scope list_scope.

(** The shape of a value: what its fields are called and which kind of value is in them. *)
Fixpoint vsh (v : val) : val :=
  match v with
  | VInt _ => VInt 0
  | VBool _ => VBool false
  | VArr _ => VArr []
  | VBytes _ => VBytes None
  | VStr _ => VStr []
  | VSlice _ => VSlice None
  | VPtr _ => VPtr None
  | VStruct l => VStruct (mapf vsh l)
  end.
Fixpoint uniq (l : list string) : bool :=
  match l with [] => true | x :: l => negb (existsb (String.eqb x) l) && uniq l end.

Section Flat.
Variable E : env.
Fixpoint flat (n : nat) (t : cty) : bool :=
  match n with
  | O => false
  | S n =>
      match t with
      | CVarArray _ _ | CPtr _ => false
      | CStruct fs => uniq (map fst fs) && forallb (fun ft => flat n (snd ft)) fs
      | CUnion sw st arms def =>
          let fs := union_fields sw st arms def in
          uniq (map fst fs) && forallb (fun ft => flat n (snd ft)) fs &&
          match zero n E st with Some (VInt _) | Some (VBool _) => true | _ => false end
      | CIdent x => match lookup x E with Some t => flat n t | None => false end
      | _ => true
      end
  end.

Lemma existsb_in x l : In x l -> existsb (String.eqb x) l = true.
Proof. intros H. apply existsb_exists. exists x. split; [exact H|apply String.eqb_refl]. Qed.
Lemma zero_lookup Z0 fs : forall l f t, uniq (map fst fs) = true -> zero_fields Z0 fs = Some l -> In (f, t) fs ->
  exists z, lookup f l = Some z /\ Z0 t = Some z.
Proof.
  induction fs as [|[g u] fs IH]; intros l f t U H Hi; [destruct Hi|]. cbn [zero_fields map fst uniq] in *.
  rewrite andb_true_iff in U. destruct U as [U1 U2].
  destruct (Z0 u) as [z|] eqn:Ez; [|discriminate]. destruct (zero_fields Z0 fs) as [l'|]; [|discriminate]. injection H as <-.
  destruct Hi as [Hi|Hi].
  - injection Hi as <- <-. exists z. cbn. rewrite String.eqb_refl. auto.
  - destruct (IH l' f t U2 eq_refl Hi) as (z' & H1 & H2). exists z'. split; [|exact H2]. cbn.
    destruct (String.eqb f g) eqn:Ef; [|exact H1]. apply String.eqb_eq in Ef. subst g.
    rewrite (existsb_in f (map fst fs)) in U1; [discriminate|]. apply in_map_iff. exists (f, t). auto.
Qed.
Lemma update_id f (x : val) l : lookup f l = Some x -> update f x l = l.
Proof.
  induction l as [|[g y] l IH]; [discriminate|]. cbn. destruct (String.eqb f g) eqn:Ef.
  - apply String.eqb_eq in Ef. intros [= ->]. subst. reflexivity.
  - intros H. rewrite (IH H). reflexivity.
Qed.

Section Step.
Variable n : nat.
Hypothesis IH : forall t z, flat n t = true -> zero n E t = Some z -> forall s v, vsh v = vsh z ->
  exists s' v', xdr n E t s v = Ret (s', v') /\ vsh v' = vsh z.
Variables (fs : list (string * cty)) (l : list (string * val)).
Hypothesis Uf : uniq (map fst fs) = true.
Hypothesis Ff : forallb (fun ft => flat n (snd ft)) fs = true.
Hypothesis Zf : zero_fields (zero n E) fs = Some l.

Lemma vsh_struct v : vsh v = vsh (VStruct l) -> exists lv, v = VStruct lv /\ mapf vsh lv = mapf vsh l.
Proof. destruct v; try discriminate. cbn. intros [= H]. eauto. Qed.
Lemma flat_field f t s v : In (f, t) fs -> vsh v = vsh (VStruct l) ->
  exists s' v', on_field (xdr n E t) s v f = Ret (s', v') /\ vsh v' = vsh (VStruct l) /\
  exists lv x z, v' = VStruct lv /\ lookup f lv = Some x /\ zero n E t = Some z /\ vsh x = vsh z.
Proof.
  intros Hi Hv. destruct (vsh_struct v Hv) as (lv & -> & Hl).
  destruct (zero_lookup _ _ _ _ _ Uf Zf Hi) as (z & H1 & H2).
  assert (Hx : exists x, lookup f lv = Some x /\ vsh x = vsh z).
  { pose proof (lookup_mapf vsh f lv) as K. rewrite Hl, lookup_mapf, H1 in K. cbn in K.
    destruct (lookup f lv) as [x|]; [|discriminate]. injection K as K. eauto. }
  destruct Hx as (x & Hx & Sx). rewrite forallb_forall in Ff. specialize (Ff _ Hi).
  destruct (IH t z Ff H2 s x Sx) as (s' & x' & R & S'). cbn [on_field]. rewrite Hx, R. cbn [obind].
  exists s', (VStruct (update f x' lv)). split; [reflexivity|]. split.
  - cbn [vsh]. f_equal. rewrite update_mapf, S', Hl. apply update_id. rewrite lookup_mapf, H1. reflexivity.
  - exists (update f x' lv), x', z. split; [reflexivity|]. split; [|auto].
    clear -Hx. induction lv as [|[g y] lv IHl]; [discriminate|]. cbn in *. destruct (String.eqb f g) eqn:Ef.
    + cbn. rewrite Ef. reflexivity.
    + cbn. rewrite Ef. apply IHl. exact Hx.
Qed.
Lemma flat_fields gs : (forall g, In g gs -> In g fs) -> forall s v, vsh v = vsh (VStruct l) ->
  exists s' v', xdr_fields (xdr n E) gs s v = Ret (s', v') /\ vsh v' = vsh (VStruct l).
Proof.
  induction gs as [|[f t] gs IHg]; intros Hg s v Hv; cbn [xdr_fields]; [eauto|].
  destruct (flat_field f t s v (Hg _ (or_introl eq_refl)) Hv) as (s1 & v1 & -> & S1 & _). cbn [obind].
  apply IHg; [|exact S1]. intros g Hi. apply Hg. right. exact Hi.
Qed.
End Step.

Lemma find_in_arms d arms def f t : pick_arm d arms def = Some (Some (f, t)) -> In (f, t) (arm_fields arms ++ def_fields def).
Proof.
  unfold pick_arm. destruct (find _ arms) as [a|] eqn:Ea.
  - intros [= H]. apply find_some in Ea. destruct Ea as [Ea _]. apply in_or_app. left. unfold arm_fields.
    apply in_flat_map. exists a. split; [exact Ea|]. rewrite H. left. reflexivity.
  - intros ->. apply in_or_app. right. left. reflexivity.
Qed.

Theorem flat_total n : forall t z, flat n t = true -> zero n E t = Some z -> forall s v, vsh v = vsh z ->
  exists s' v', xdr n E t s v = Ret (s', v') /\ vsh v' = vsh z.
Proof.
  induction n as [|n IH]; intros t z F Hz s v Hv; [discriminate|]. cbn [flat] in F. cbn [zero] in Hz. cbn [xdr].
  destruct t; try discriminate.
  1-8: injection Hz as <-; destruct v; try discriminate;
    match goal with |- context [let '(_, _) := ?p in _] => destruct p as [s' x'] end; eexists; eexists; split; reflexivity.
  - destruct (zero_fields (zero n E) fs) as [l|] eqn:El; [|discriminate]. injection Hz as <-.
    rewrite andb_true_iff in F. destruct F as [F1 F2].
    destruct (flat_fields n IH fs l F1 F2 El fs (fun g H => H) s v Hv) as (s' & v' & R & S').
    destruct v; try discriminate. eauto.
  - destruct (zero_fields (zero n E) _) as [l|] eqn:El; [|discriminate]. injection Hz as <-.
    rewrite !andb_true_iff in F. destruct F as [[F1 F2] F3].
    destruct (flat_field n IH _ l F1 F2 El sw t s v (or_introl eq_refl) Hv) as (s1 & v1 & R & S1 & lv & x & z & -> & Hx & Hz & Sx).
    destruct v; try discriminate. rewrite R. cbn [obind field_disc]. rewrite Hx. rewrite Hz in F3.
    assert (Hd : exists d, disc_of x = Some d) by (destruct z; try discriminate F3; destruct x; try discriminate Sx; cbn; eauto).
    destruct Hd as [d ->]. destruct (pick_arm d arms def) as [[[f u]|]|] eqn:Ep; [|eauto..].
    destruct (flat_field n IH _ l F1 F2 El f u s1 (VStruct lv)) as (s2 & v2 & R2 & S2 & _); [|exact S1|eauto].
    right. apply (find_in_arms _ _ _ _ _ Ep).
  - destruct (lookup x E) as [t|]; [|discriminate]. apply IH; assumption.
Qed.
End Flat.
