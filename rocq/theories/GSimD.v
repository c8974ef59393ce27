(** Consequences of the simulation of GSimC.v, and example specifications. *)
From Verif Require Import GoLex XLex Gram GParse Emit Bytes XdrLib Types Interp Spec Meta Prim Enc Dec Total Canon Runs Codec Codec2 Codec3 Codec4 Check GoAst GoSem GElab GoSemP GSimC.
Open Scope string_scope.
Open Scope Z_scope.
Open Scope list_scope.

Lemma gen_sim fl ds E G : supported fl ds = Some (E, G) -> forall x c s v s' v', lookup x E = Some c ->
  runs E (CIdent x) s v s' v' -> exists M, forall m, (M <= m)%nat -> call G m x s v = GRet (s', v').
Proof. intros H x c s v s' v' Hx [n Hn]. exact (sim_method fl ds E G H x c n s v (s', v') Hx Hn). Qed.

Lemma xdr_total D E t s v : good D E t -> has_ty E t v -> exists s' v', runs E t s v s' v'.
Proof.
  intros Hg Hv. destruct (x_reader s) eqn:Hs;
    [destruct (g14 D E t Hg s v Hs Hv) as (N & [s' v'] & H)|destruct (g15 D E t Hg s v Hs Hv) as (N & [s' v'] & H)];
    exists s', v', N; apply H; lia.
Qed.

Lemma good_lookup D E x : good D E (CIdent x) -> exists c, lookup x E = Some c.
Proof.
  intros (_ & H & _). inversion H. eauto.
Qed.

Lemma gen_total fl ds E G D : supported fl ds = Some (E, G) -> forall x s v, good D E (CIdent x) -> has_ty E (CIdent x) v ->
  exists s' v', runs E (CIdent x) s v s' v' /\ exists M, forall m, (M <= m)%nat -> call G m x s v = GRet (s', v').
Proof.
  intros H x s v Hg Hv. destruct (xdr_total D E _ s v Hg Hv) as (s' & v' & Hr). exists s', v'. split; [exact Hr|].
  destruct (good_lookup _ _ _ Hg) as [c Hc]. eapply gen_sim; eauto.
Qed.

(** The generated encoder writes the RFC 4506 encoding, and the decoder reads it. *)
Lemma gen_encodes fl ds E G D : supported fl ds = Some (E, G) -> forall x v a, good D E (CIdent x) -> has_ty E (CIdent x) v ->
  bounded RFC E (CIdent x) v ->
  exists b, Wire RFC E (CIdent x) v b /\ exists M, forall m, (M <= m)%nat -> call G m x (MakeWriter a) v = GRet (MakeWriter (a ++ b), v).
Proof.
  intros H x v a Hg Hv Hb. destruct (good_lookup _ _ _ Hg) as [c Hc]. destruct Hg as (Hwf & Ht & Hz).
  destruct (proj1 (bounded_Wire D E RFC Hwf) _ _ Hb Ht Hv) as [b Hw]. exists b. split; [exact Hw|].
  eapply gen_sim; eauto. exact (enc_wire D E (CIdent x) Hwf Ht RFC a v b strict_RFC Hw Hv).
Qed.
Lemma gen_decodes fl ds E G D : supported fl ds = Some (E, G) -> forall x v b rest z, good D E (CIdent x) -> Wire RFC E (CIdent x) v b -> fresh E (CIdent x) z ->
  exists y, same E (CIdent x) v y /\ exists M, forall m, (M <= m)%nat -> call G m x (MakeReader (b ++ rest)) z = GRet (MakeReader rest, y).
Proof.
  intros H x v b rest z Hg Hw Hf. destruct (good_lookup _ _ _ Hg) as [c Hc]. destruct Hg as (Hwf & Ht & Hz).
  destruct (dec_wire D E (CIdent x) Hwf Ht Hz RFC b rest v z Hw) as (y & Hr & Hs).
  - eapply fresh_ty; eauto.
  - eapply fresh_stale; eauto.
  - exists y. split; [exact Hs|]. eapply gen_sim; eauto.
Qed.

Definition sx_src : string :=
  "const MAX = 3; enum kind { NONE = 0, DISC = 1, NGON = 2 }; typedef opaque id[8];
   struct point { int x; unsigned hyper y; };
   union shape switch (kind k) { case NONE: void; case DISC: case 7: point c; case NGON: point pts<MAX>; default: bool b; };
   struct node { shape s; string name<>; struct { id a; opaque o<4>; } in<2>; node *next; };
   typedef node *list; typedef union switch (bool ok) { case TRUE: list l; case FALSE: void; } res;".
Definition sx_ds : list defn := Eval vm_compute in match front sx_src with Some ds => ds | None => [] end.
Definition sx_EG : env * gpkg := Eval vm_compute in match supported (make_flags "p") sx_ds with Some p => p | None => ([], mkPkg [] [] []) end.
Definition sx_E : env := fst sx_EG.
Definition sx_G : gpkg := snd sx_EG.
Lemma sx_front : front sx_src = Some sx_ds.
Proof. vm_compute. reflexivity. Qed.
Lemma sx_sup : supported (make_flags "p") sx_ds = Some (sx_E, sx_G).
Proof. vm_compute. reflexivity. Qed.
Lemma sx_good : good 12 sx_E (CIdent "Res").
Proof. apply (goodb_sound 12). vm_compute. reflexivity. Qed.

(** A list of two nodes. *)
Definition sx_node (k : Z) (c : val) (pts : val) (name : list byte) (ins : val) (next : val) : val :=
  VStruct [("S", VStruct [("K", VInt k); ("C", c); ("Pts", pts); ("B", VBool false)]); ("Name", VStr name); ("In", ins); ("Next", next)].
Definition sx_pt (x y : Z) : val := VStruct [("X", VInt x); ("Y", VInt y)].
Definition sx_v : val :=
  VStruct [("Ok", VBool true);
    ("L", VStruct [("P", VPtr (Some (sx_node 7 (sx_pt (-2) 5) (VSlice None) [x61; x62]
        (VSlice (Some [VStruct [("A", VArr [x01; x02; x03; x04; x05; x06; x07; x08]); ("O", VBytes (Some [x09]))]]))
        (VPtr (Some (sx_node 2 (sx_pt 0 0) (VSlice (Some [sx_pt 1 2; sx_pt 3 4])) [] (VSlice (Some [])) (VPtr None)))))))])].
Definition sx_b : list byte :=
  [x00; x00; x00; x01;  x00; x00; x00; x01;
   x00; x00; x00; x07;  xff; xff; xff; xfe;  x00; x00; x00; x00; x00; x00; x00; x05;
   x00; x00; x00; x02; x61; x62; x00; x00;
   x00; x00; x00; x01;  x01; x02; x03; x04; x05; x06; x07; x08;  x00; x00; x00; x01; x09; x00; x00; x00;
   x00; x00; x00; x01;
   x00; x00; x00; x02;  x00; x00; x00; x02;
   x00; x00; x00; x01; x00; x00; x00; x00; x00; x00; x00; x02;  x00; x00; x00; x03; x00; x00; x00; x00; x00; x00; x00; x04;
   x00; x00; x00; x00;  x00; x00; x00; x00;  x00; x00; x00; x00].
Lemma sx_ty : has_ty sx_E (CIdent "Res") sx_v.
Proof. apply (has_tyb_sound 20). vm_compute. reflexivity. Qed.
Definition sx_z : val := VStruct [("Ok", VBool false); ("L", VStruct [("P", VPtr None)])].
Lemma sx_fresh : fresh sx_E (CIdent "Res") sx_z.
Proof. exists 12%nat. vm_compute. reflexivity. Qed.
Lemma sx_enc : call sx_G 40 "Res" (MakeWriter []) sx_v = GRet (MakeWriter sx_b, sx_v).
Proof. vm_compute. reflexivity. Qed.
Lemma sx_dec : call sx_G 40 "Res" (MakeReader (sx_b ++ [x2a])) sx_z = GRet (MakeReader [x2a], sx_v).
Proof. vm_compute. reflexivity. Qed.

(** ** Nested inline arrays *)
Definition nx_src : string := "struct nest { struct { unsigned int b<>; } a<>; };".
Definition nx_ds : list defn := Eval vm_compute in match front nx_src with Some ds => ds | None => [] end.
Definition nx_E : env := [("Nest", CStruct [("A", CVarArray None (CStruct [("B", CVarArray None CU32)]))])].
Definition nx_G : gpkg := Eval vm_compute in match pkg_of (make_flags "p") nx_ds with Some p => p | None => mkPkg [] [] [] end.
Definition nx_v (l : list (list Z)) : val :=
  VStruct [("A", VSlice (Some (map (fun x => VStruct [("B", VSlice (Some (map VInt x)))]) l)))].
Definition nx_z : val := VStruct [("A", VSlice None)].
Lemma nx_front : front nx_src = Some nx_ds.
Proof. vm_compute. reflexivity. Qed.
Lemma nx_el : el_spec (make_flags "p") nx_ds = Some nx_E.
Proof. vm_compute. reflexivity. Qed.
Lemma nx_pkg : pkg_of (make_flags "p") nx_ds = Some nx_G.
Proof. vm_compute. reflexivity. Qed.
Lemma nx_good : good 6 nx_E (CIdent "Nest").
Proof. apply (goodb_sound 6). vm_compute. reflexivity. Qed.
Lemma nx_ty1 : has_ty nx_E (CIdent "Nest") (nx_v [[1; 2]]).
Proof. apply (has_tyb_sound 20). vm_compute. reflexivity. Qed.
Lemma nx_ty2 : has_ty nx_E (CIdent "Nest") (nx_v [[1]; [2]]).
Proof. apply (has_tyb_sound 20). vm_compute. reflexivity. Qed.
Lemma nx_fresh : fresh nx_E (CIdent "Nest") nx_z.
Proof. exists 6%nat. vm_compute. reflexivity. Qed.
(** One element of two numbers, and two elements of one number each. *)
Definition nx_b1 : list byte := [x00; x00; x00; x01;  x00; x00; x00; x02;  x00; x00; x00; x01;  x00; x00; x00; x02].
Definition nx_b2 : list byte := [x00; x00; x00; x02;  x00; x00; x00; x01; x00; x00; x00; x01;  x00; x00; x00; x01; x00; x00; x00; x02].
Lemma nx_enc1 : Encode nx_E (CIdent "Nest") (nx_v [[1; 2]]) nx_b1 None.
Proof. exists 10%nat. vm_compute. reflexivity. Qed.
Lemma nx_enc2 : Encode nx_E (CIdent "Nest") (nx_v [[1]; [2]]) nx_b2 None.
Proof. exists 10%nat. vm_compute. reflexivity. Qed.
Lemma nx_panic m : (20 <= m)%nat -> call nx_G m "Nest" (MakeWriter []) (nx_v [[1; 2]]) = GPanic.
Proof. intros H. apply (call_mono nx_G 20); [exact H|vm_compute; reflexivity|discriminate]. Qed.
Lemma nx_panic_dec m : (20 <= m)%nat -> call nx_G m "Nest" (MakeReader nx_b1) nx_z = GPanic.
Proof. intros H. apply (call_mono nx_G 20); [exact H|vm_compute; reflexivity|discriminate]. Qed.
Lemma nx_wrong m : (20 <= m)%nat -> call nx_G m "Nest" (MakeWriter []) (nx_v [[1]; [2]]) =
  GRet (MakeWriter [x00; x00; x00; x02;  x00; x00; x00; x01; x00; x00; x00; x01;  x00; x00; x00; x01; x00; x00; x00; x01], nx_v [[1]; [2]]).
Proof. intros H. apply (call_mono nx_G 20); [exact H|vm_compute; reflexivity|discriminate]. Qed.
Lemma nx_wrong_dec m : (20 <= m)%nat -> call nx_G m "Nest" (MakeReader nx_b2) nx_z = GRet (MakeReader [], nx_v [[2]; [0]]).
Proof. intros H. apply (call_mono nx_G 20); [exact H|vm_compute; reflexivity|discriminate]. Qed.
