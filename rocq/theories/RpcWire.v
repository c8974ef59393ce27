(** The layouts of RpcSpec.v are the RFC 4506 encodings of the message types. *)
From Verif Require Import Bytes XdrLib Types Interp Spec Prim Meta Enc Dec Canon Runs Codec Inv
  RpcTypes RpcSpec.
Open Scope string_scope.
Open Scope Z_scope.
Open Scope list_scope.

(** Open a value of a concrete type. *)
Lemma ty_enum x v : lookup x rpc_env = Some CU32 -> has_ty rpc_env (CIdent x) v ->
  exists z, v = VInt z /\ u32 z.
Proof. intros Hx H. apply (ty_ident _ _ CU32) in H; [|exact Hx]. apply ty_u32_inv in H. exact H. Qed.

Lemma wire_u32 p z w : Wire p rpc_env CU32 (VInt z) w <-> u32 z /\ w = be4 z.
Proof.
  split.
  - intros H. apply w_u32 in H. destruct H as (z' & [= <-] & _ & H). apply is_be_be4. exact H.
  - intros [H ->]. constructor; [exact H|apply be4_is_be; exact H].
Qed.

Lemma wire_enum p x z w : lookup x rpc_env = Some CU32 ->
  (Wire p rpc_env (CIdent x) (VInt z) w <-> u32 z /\ w = be4 z).
Proof.
  intros Hx. rewrite <- (wire_u32 p). split.
  - intros H. apply (w_ident _ _ _ CU32) in H; [|exact Hx]. exact H.
  - intros H. econstructor; eauto.
Qed.

Lemma ty_auth v : has_ty rpc_env (CIdent "Opaque_auth") v -> exists f o, v = auth_val f o /\ u32 f.
Proof.
  intros H. eapply ty_ident in H; [|reflexivity]. apply ty_struct in H. destruct H as (l & -> & H).
  apply tyf_cons in H. destruct H as (v1 & l1 & -> & H1 & H).
  apply tyf_cons in H. destruct H as (v2 & l2 & -> & H2 & H). apply tyf_nil in H. subst.
  apply ty_enum in H1; [|reflexivity]. destruct H1 as (z & -> & Hz).
  apply ty_varopaque in H2. destruct H2 as (o & ->). exists z, o. auto.
Qed.

Lemma auth_ty f o : u32 f -> has_ty rpc_env (CIdent "Opaque_auth") (auth_val f o).
Proof.
  intros Hf. econstructor; [reflexivity|]. constructor. constructor; [|constructor; [|constructor]].
  - econstructor; [reflexivity|]. constructor. exact Hf.
  - constructor.
Qed.

Lemma wire_auth p f o w :
  Wire p rpc_env (CIdent "Opaque_auth") (auth_val f o) w <-> auth p f (bytes_of o) w.
Proof.
  split.
  - intros H. eapply w_ident in H; [|reflexivity]. apply w_struct in H.
    eapply wf_cons in H; [|reflexivity]. destruct H as (b1 & b2 & -> & H1 & H).
    eapply wf_cons in H; [|reflexivity]. destruct H as (b3 & b4 & -> & H2 & H).
    apply wf_nil in H. subst b4. rewrite app_nil_r.
    apply wire_enum in H1; [|reflexivity]. destruct H1 as [Hf ->].
    apply w_varopaque in H2. destruct H2 as (hd & pad & -> & [_ Hl] & Hh & Hp).
    destruct (is_be_be4 _ _ Hh) as [_ ->]. constructor; auto.
  - intros H. destruct H as [pad Hf Hl Hp]. econstructor; [reflexivity|]. constructor.
    rewrite <- (app_nil_r (be4 (zlen (bytes_of o)) ++ _)).
    econstructor; [reflexivity| |].
    + apply wire_enum; [reflexivity|]. auto.
    + econstructor; [reflexivity| |constructor].
      econstructor; [reflexivity| | |exact Hp].
      * split; [pose proof (zlen_nonneg (bytes_of o)); lia|exact Hl].
      * apply be4_is_be. unfold u32. pose proof (zlen_nonneg (bytes_of o)). lia.
Qed.

(** ** Explicit messages *)
Definition call_val (xid rv prog vers proc : Z) (cred verf rbody : val) : val :=
  VStruct [("Xid", VInt xid);
           ("Body", VStruct [("Mtype", VInt 0);
              ("Cbody", VStruct [("Rpcvers", VInt rv); ("Prog", VInt prog); ("Vers", VInt vers);
                                 ("Proc", VInt proc); ("Cred", cred); ("Verf", verf)]);
              ("Rbody", rbody)])].

(** Any value of the message type. *)
Definition msg_val (xid mtype : Z) (cbody rbody : val) : val :=
  VStruct [("Xid", VInt xid);
           ("Body", VStruct [("Mtype", VInt mtype); ("Cbody", cbody); ("Rbody", rbody)])].
Definition cbody_val (rv prog vers proc : Z) (cred verf : val) : val :=
  VStruct [("Rpcvers", VInt rv); ("Prog", VInt prog); ("Vers", VInt vers);
           ("Proc", VInt proc); ("Cred", cred); ("Verf", verf)].
Definition rbody_val (stat : Z) (areply rreply : val) : val :=
  VStruct [("Stat", VInt stat); ("Areply", areply); ("Rreply", rreply)].
Definition mm_val (lo hi : Z) : val := VStruct [("Low", VInt lo); ("High", VInt hi)].
Definition areply_val (verf : val) (stat : Z) (mm : val) : val :=
  VStruct [("Verf", verf);
           ("Reply_data", VStruct [("Stat", VInt stat); ("Results", VArr []); ("Mismatch_info", mm)])].
Definition rreply_val (stat : Z) (mm : val) (astat : Z) : val :=
  VStruct [("Stat", VInt stat); ("Mismatch_info", mm); ("Astat", VInt astat)].

Ltac open_ty H v l := apply tyf_cons in H; destruct H as (v & l & -> & ?H & H).

Lemma ty_cbody v : has_ty rpc_env (CIdent "Call_body") v ->
  exists rv prog vers proc f1 o1 f2 o2,
    v = cbody_val rv prog vers proc (auth_val f1 o1) (auth_val f2 o2) /\
    u32 rv /\ u32 prog /\ u32 vers /\ u32 proc /\ u32 f1 /\ u32 f2.
Proof.
  intros H. eapply ty_ident in H; [|reflexivity]. apply ty_struct in H. destruct H as (l & -> & H).
  apply tyf_cons in H; destruct H as (v1 & l1 & -> & H1 & H).
  apply tyf_cons in H; destruct H as (v2 & l2 & -> & H2 & H).
  apply tyf_cons in H; destruct H as (v3 & l3 & -> & H3 & H).
  apply tyf_cons in H; destruct H as (v4 & l4 & -> & H4 & H).
  apply tyf_cons in H; destruct H as (v5 & l5 & -> & H5 & H).
  apply tyf_cons in H; destruct H as (v6 & l6 & -> & H6 & H). apply tyf_nil in H. subst.
  apply ty_u32_inv in H1, H2, H3, H4. apply ty_auth in H5, H6.
  destruct H1 as (z1 & -> & ?), H2 as (z2 & -> & ?), H3 as (z3 & -> & ?), H4 as (z4 & -> & ?).
  destruct H5 as (f1 & o1 & -> & ?), H6 as (f2 & o2 & -> & ?).
  exists z1, z2, z3, z4, f1, o1, f2, o2. repeat (split; [first [reflexivity|assumption]|]). assumption.
Qed.

Lemma ty_mm v : has_ty rpc_env (CStruct [("Low", CU32); ("High", CU32)]) v ->
  exists lo hi, v = mm_val lo hi /\ u32 lo /\ u32 hi.
Proof.
  intros H. apply ty_struct in H. destruct H as (l & -> & H).
  apply tyf_cons in H; destruct H as (v1 & l1 & -> & H1 & H).
  apply tyf_cons in H; destruct H as (v2 & l2 & -> & H2 & H). apply tyf_nil in H. subst.
  apply ty_u32_inv in H1, H2. destruct H1 as (z1 & -> & ?), H2 as (z2 & -> & ?).
  exists z1, z2. auto.
Qed.

Lemma ty_areply v : has_ty rpc_env (CIdent "Accepted_reply") v ->
  exists f o stat lo hi, v = areply_val (auth_val f o) stat (mm_val lo hi) /\
    u32 f /\ u32 stat /\ u32 lo /\ u32 hi.
Proof.
  intros H. eapply ty_ident in H; [|reflexivity]. apply ty_struct in H. destruct H as (l & -> & H).
  apply tyf_cons in H; destruct H as (v1 & l1 & -> & H1 & H).
  apply tyf_cons in H; destruct H as (v2 & l2 & -> & H2 & H). apply tyf_nil in H. subst.
  apply ty_auth in H1. destruct H1 as (f & o & -> & ?).
  apply ty_union in H2. destruct H2 as (l & -> & H2).
  apply tyf_cons in H2; destruct H2 as (u1 & l1 & -> & K1 & H2).
  apply tyf_cons in H2; destruct H2 as (u2 & l2 & -> & K2 & H2).
  apply tyf_cons in H2; destruct H2 as (u3 & l3 & -> & K3 & H2). apply tyf_nil in H2. subst.
  apply ty_enum in K1; [|reflexivity]. destruct K1 as (st & -> & ?).
  apply ty_opaque in K2. destruct K2 as (bs & -> & Hbs). destruct bs; [|discriminate].
  apply ty_mm in K3. destruct K3 as (lo & hi & -> & ? & ?).
  exists f, o, st, lo, hi. repeat (split; [first [reflexivity|assumption]|]). assumption.
Qed.

Lemma ty_rreply v : has_ty rpc_env (CIdent "Rejected_reply") v ->
  exists stat lo hi astat, v = rreply_val stat (mm_val lo hi) astat /\
    u32 stat /\ u32 lo /\ u32 hi /\ u32 astat.
Proof.
  intros H. eapply ty_ident in H; [|reflexivity]. apply ty_union in H. destruct H as (l & -> & H).
  apply tyf_cons in H; destruct H as (v1 & l1 & -> & H1 & H).
  apply tyf_cons in H; destruct H as (v2 & l2 & -> & H2 & H).
  apply tyf_cons in H; destruct H as (v3 & l3 & -> & H3 & H). apply tyf_nil in H. subst.
  apply ty_enum in H1; [|reflexivity]. destruct H1 as (st & -> & ?).
  apply ty_mm in H2. destruct H2 as (lo & hi & -> & ? & ?).
  apply ty_enum in H3; [|reflexivity]. destruct H3 as (a & -> & ?).
  exists st, lo, hi, a. repeat (split; [first [reflexivity|assumption]|]). assumption.
Qed.

Lemma ty_rbody v : has_ty rpc_env (CIdent "Reply_body") v ->
  exists stat f o astat lo hi rstat rlo rhi ra,
    v = rbody_val stat (areply_val (auth_val f o) astat (mm_val lo hi))
          (rreply_val rstat (mm_val rlo rhi) ra) /\ u32 stat /\ u32 f /\ u32 astat /\
    u32 lo /\ u32 hi /\ u32 rstat /\ u32 rlo /\ u32 rhi /\ u32 ra.
Proof.
  intros H. eapply ty_ident in H; [|reflexivity]. apply ty_union in H. destruct H as (l & -> & H).
  apply tyf_cons in H; destruct H as (v1 & l1 & -> & H1 & H).
  apply tyf_cons in H; destruct H as (v2 & l2 & -> & H2 & H).
  apply tyf_cons in H; destruct H as (v3 & l3 & -> & H3 & H). apply tyf_nil in H. subst.
  apply ty_enum in H1; [|reflexivity]. destruct H1 as (st & -> & ?).
  apply ty_areply in H2. destruct H2 as (f & o & s & lo & hi & -> & ? & ? & ? & ?).
  apply ty_rreply in H3. destruct H3 as (rs & rlo & rhi & ra & -> & ? & ? & ? & ?).
  exists st, f, o, s, lo, hi, rs, rlo, rhi, ra.
  repeat (split; [first [reflexivity|assumption]|]). assumption.
Qed.

Lemma ty_msg v : has_ty rpc_env msg_t v ->
  exists xid mt c r, v = msg_val xid mt c r /\ u32 xid /\ u32 mt /\
    has_ty rpc_env (CIdent "Call_body") c /\ has_ty rpc_env (CIdent "Reply_body") r.
Proof.
  intros H. eapply ty_ident in H; [|reflexivity]. apply ty_struct in H. destruct H as (l & -> & H).
  apply tyf_cons in H; destruct H as (v1 & l1 & -> & H1 & H).
  apply tyf_cons in H; destruct H as (v2 & l2 & -> & H2 & H). apply tyf_nil in H. subst.
  apply ty_u32_inv in H1. destruct H1 as (xid & -> & Hx).
  apply ty_union in H2. destruct H2 as (l & -> & H).
  apply tyf_cons in H; destruct H as (u1 & l1 & -> & K1 & H).
  apply tyf_cons in H; destruct H as (u2 & l2 & -> & K2 & H).
  apply tyf_cons in H; destruct H as (u3 & l3 & -> & K3 & H). apply tyf_nil in H. subst.
  apply ty_enum in K1; [|reflexivity]. destruct K1 as (mt & -> & ?).
  exists xid, mt, u2, u3. repeat (split; [first [reflexivity|assumption]|]). assumption.
Qed.

(** *** Encodings of the parts *)
Lemma wire_cbody p rv prog vers proc c v w :
  Wire p rpc_env (CIdent "Call_body") (cbody_val rv prog vers proc c v) w <->
  u32 rv /\ u32 prog /\ u32 vers /\ u32 proc /\ exists w1 w2,
    Wire p rpc_env (CIdent "Opaque_auth") c w1 /\ Wire p rpc_env (CIdent "Opaque_auth") v w2 /\
    w = be4 rv ++ be4 prog ++ be4 vers ++ be4 proc ++ w1 ++ w2.
Proof.
  split.
  - intros H. eapply w_ident in H; [|reflexivity]. apply w_struct in H.
    eapply wf_cons in H; [|reflexivity]. destruct H as (b1 & r1 & -> & H1 & H).
    eapply wf_cons in H; [|reflexivity]. destruct H as (b2 & r2 & -> & H2 & H).
    eapply wf_cons in H; [|reflexivity]. destruct H as (b3 & r3 & -> & H3 & H).
    eapply wf_cons in H; [|reflexivity]. destruct H as (b4 & r4 & -> & H4 & H).
    eapply wf_cons in H; [|reflexivity]. destruct H as (b5 & r5 & -> & H5 & H).
    eapply wf_cons in H; [|reflexivity]. destruct H as (b6 & r6 & -> & H6 & H).
    apply wf_nil in H. subst r6. rewrite app_nil_r.
    apply wire_u32 in H1, H2, H3, H4. destruct H1 as [? ->], H2 as [? ->], H3 as [? ->], H4 as [? ->].
    repeat (split; [assumption|]). exists b5, b6. auto.
  - intros (? & ? & ? & ? & w1 & w2 & H1 & H2 & ->).
    econstructor; [reflexivity|]. constructor. rewrite <- (app_nil_r w2).
    repeat (econstructor; [reflexivity|first [apply wire_u32; auto|eassumption]|]). constructor.
Qed.

Lemma wire_mm p lo hi w : Wire p rpc_env (CStruct [("Low", CU32); ("High", CU32)]) (mm_val lo hi) w <->
  u32 lo /\ u32 hi /\ w = be4 lo ++ be4 hi.
Proof.
  split.
  - intros H. apply w_struct in H.
    eapply wf_cons in H; [|reflexivity]. destruct H as (b1 & r1 & -> & H1 & H).
    eapply wf_cons in H; [|reflexivity]. destruct H as (b2 & r2 & -> & H2 & H).
    apply wf_nil in H. subst r2. rewrite app_nil_r.
    apply wire_u32 in H1, H2. destruct H1 as [? ->], H2 as [? ->]. auto.
  - intros (? & ? & ->). constructor. rewrite <- (app_nil_r (be4 hi)).
    repeat (econstructor; [reflexivity|apply wire_u32; auto|]). constructor.
Qed.

(** Any accepted reply body; [tail] is what the status prescribes. *)
Definition acc_tail (stat lo hi : Z) : list byte := if stat =? 2 then be4 lo ++ be4 hi else [].

Lemma is_pad0 p pad : is_pad p 0 pad -> pad = [].
Proof.
  intros (H & K & _). destruct pad as [|? [|? [|? [|]]]]; cbn in *; try discriminate; try lia; auto.
Qed.
Lemma is_pad_nil p : is_pad p 0 [].
Proof. split; [cbn; lia|]. split; [reflexivity|constructor]. Qed.

Lemma wire_areply p verf stat lo hi w :
  u32 lo -> u32 hi ->
  (Wire p rpc_env (CIdent "Accepted_reply") (areply_val verf stat (mm_val lo hi)) w <->
   u32 stat /\ exists wv, Wire p rpc_env (CIdent "Opaque_auth") verf wv /\
     w = wv ++ be4 stat ++ acc_tail stat lo hi).
Proof.
  intros Hlo Hhi. split.
  - intros H. eapply w_ident in H; [|reflexivity]. apply w_struct in H.
    eapply wf_cons in H; [|reflexivity]. destruct H as (b1 & r1 & -> & H1 & H).
    eapply wf_cons in H; [|reflexivity]. destruct H as (b2 & r2 & -> & H2 & H).
    apply wf_nil in H. subst r2. rewrite app_nil_r.
    eapply w_union in H2; [|reflexivity|reflexivity].
    destruct H2 as (d1 & d2 & -> & Hd & H2).
    apply wire_enum in Hd; [|reflexivity]. destruct Hd as [Hs ->].
    split; [exact Hs|]. exists b1. split; [exact H1|]. do 2 f_equal. unfold acc_tail.
    unfold pick_arm in H2. cbn [find existsb fst] in H2. rewrite orb_false_r in H2.
    destruct (Z.eqb_spec stat 0) as [->|Hn0].
    { cbn [snd] in H2. destruct H2 as [(f & t & v & [= <- <-] & [= <-] & H2)|(-> & [K|[K _]])]; try discriminate.
      apply w_opaque in H2. destruct H2 as (pad & -> & _ & Hp). rewrite (is_pad0 _ _ Hp). reflexivity. }
    rewrite orb_false_r in H2. destruct (Z.eqb_spec stat 2) as [->|Hn2].
    { cbn [snd] in H2. destruct H2 as [(f & t & v & [= <- <-] & [= <-] & H2)|(-> & [K|[K _]])]; try discriminate.
      apply wire_mm in H2. apply H2. }
    destruct H2 as [(f & t & v & K & _)|(-> & _)]; [discriminate|reflexivity].
  - intros (Hs & wv & Hv & ->). econstructor; [reflexivity|]. constructor.
    econstructor; [reflexivity|exact Hv|].
    rewrite <- (app_nil_r (be4 stat ++ _)). econstructor; [reflexivity| |constructor].
    unfold acc_tail.
    destruct (Z.eqb_spec stat 2) as [->|Hn2].
    { eapply W_union_arm with (d := 2); [reflexivity|apply wire_enum; auto|reflexivity|reflexivity|reflexivity|].
      apply wire_mm. auto. }
    destruct (Z.eqb_spec stat 0) as [->|Hn0].
    { eapply W_union_arm with (d := 0); [reflexivity|apply wire_enum; auto|reflexivity|reflexivity|reflexivity|].
      rewrite <- (app_nil_l []). constructor; [reflexivity|apply is_pad_nil]. }
    rewrite app_nil_r. eapply W_union_void with (d := stat); [reflexivity|apply wire_enum; auto|reflexivity|].
    unfold pick_arm. cbn [find existsb fst].
    destruct (Z.eqb_spec stat 0); [contradiction|]. destruct (Z.eqb_spec stat 2); [contradiction|]. reflexivity.
Qed.

Definition rej_tail (stat lo hi astat : Z) : list byte :=
  if stat =? 0 then be4 lo ++ be4 hi else if stat =? 1 then be4 astat else [].

Lemma wire_rreply_mm p lo hi astat w : u32 lo -> u32 hi ->
  (Wire p rpc_env (CIdent "Rejected_reply") (rreply_val 0 (mm_val lo hi) astat) w <->
   w = be4 0 ++ be4 lo ++ be4 hi).
Proof.
  intros Hlo Hhi. split.
  - intros H. eapply w_ident in H; [|reflexivity].
    eapply w_union in H; [|reflexivity|reflexivity].
    destruct H as (d1 & d2 & -> & Hd & H2).
    apply wire_enum in Hd; [|reflexivity]. destruct Hd as [Hs ->]. f_equal.
    cbn in H2. destruct H2 as [(f & t & v & [= <- <-] & [= <-] & H2)|(-> & [K|[K _]])]; try discriminate.
    apply wire_mm in H2. apply H2.
  - intros ->. econstructor; [reflexivity|].
    eapply W_union_arm with (d := 0); [reflexivity|apply wire_enum; [reflexivity|split; [apply u32_0|reflexivity]]
      |reflexivity|reflexivity|reflexivity|]. apply wire_mm. auto.
Qed.

(** Messages by type. *)
Lemma wire_msg_call p xid c r w :
  Wire p rpc_env msg_t (msg_val xid 0 c r) w <->
  u32 xid /\ exists w1, Wire p rpc_env (CIdent "Call_body") c w1 /\ w = be4 xid ++ be4 0 ++ w1.
Proof.
  split.
  - intros H. eapply w_ident in H; [|reflexivity]. apply w_struct in H.
    eapply wf_cons in H; [|reflexivity]. destruct H as (b1 & r1 & -> & H1 & H).
    eapply wf_cons in H; [|reflexivity]. destruct H as (b2 & r2 & -> & H2 & H).
    apply wf_nil in H. subst r2. rewrite app_nil_r.
    apply wire_u32 in H1. destruct H1 as [? ->].
    eapply w_union in H2; [|reflexivity|reflexivity]. destruct H2 as (d1 & d2 & -> & Hd & H2).
    apply wire_enum in Hd; [|reflexivity]. destruct Hd as [Hs ->].
    cbn in H2. destruct H2 as [(f & t & v & [= <- <-] & [= <-] & H2)|(-> & [K|[K _]])]; try discriminate.
    split; [assumption|]. exists d2. auto.
  - intros (Hx & w1 & H1 & ->). econstructor; [reflexivity|]. constructor.
    econstructor; [reflexivity|apply wire_u32; auto|].
    rewrite <- (app_nil_r (be4 0 ++ w1)). econstructor; [reflexivity| |constructor].
    eapply W_union_arm with (d := 0); [reflexivity|apply wire_enum; [reflexivity|split; [apply u32_0|reflexivity]]
      |reflexivity|reflexivity|reflexivity|exact H1].
Qed.

Lemma u32_1 : u32 1. Proof. unfold u32. lia. Qed.

Lemma wire_msg_reply p xid c r w :
  Wire p rpc_env msg_t (msg_val xid 1 c r) w <->
  u32 xid /\ exists w1, Wire p rpc_env (CIdent "Reply_body") r w1 /\ w = be4 xid ++ be4 1 ++ w1.
Proof.
  split.
  - intros H. eapply w_ident in H; [|reflexivity]. apply w_struct in H.
    eapply wf_cons in H; [|reflexivity]. destruct H as (b1 & r1 & -> & H1 & H).
    eapply wf_cons in H; [|reflexivity]. destruct H as (b2 & r2 & -> & H2 & H).
    apply wf_nil in H. subst r2. rewrite app_nil_r.
    apply wire_u32 in H1. destruct H1 as [? ->].
    eapply w_union in H2; [|reflexivity|reflexivity]. destruct H2 as (d1 & d2 & -> & Hd & H2).
    apply wire_enum in Hd; [|reflexivity]. destruct Hd as [Hs ->].
    cbn in H2. destruct H2 as [(f & t & v & [= <- <-] & [= <-] & H2)|(-> & [K|[K _]])]; try discriminate.
    split; [assumption|]. exists d2. auto.
  - intros (Hx & w1 & H1 & ->). econstructor; [reflexivity|]. constructor.
    econstructor; [reflexivity|apply wire_u32; auto|].
    rewrite <- (app_nil_r (be4 1 ++ w1)). econstructor; [reflexivity| |constructor].
    eapply W_union_arm with (d := 1); [reflexivity|apply wire_enum; [reflexivity|split; [apply u32_1|reflexivity]]
      |reflexivity|reflexivity|reflexivity|exact H1].
Qed.

Lemma wire_rbody_acc p a r w :
  Wire p rpc_env (CIdent "Reply_body") (rbody_val 0 a r) w <->
  exists w1, Wire p rpc_env (CIdent "Accepted_reply") a w1 /\ w = be4 0 ++ w1.
Proof.
  split.
  - intros H. eapply w_ident in H; [|reflexivity].
    eapply w_union in H; [|reflexivity|reflexivity]. destruct H as (d1 & d2 & -> & Hd & H2).
    apply wire_enum in Hd; [|reflexivity]. destruct Hd as [Hs ->].
    cbn in H2. destruct H2 as [(f & t & v & [= <- <-] & [= <-] & H2)|(-> & [K|[K _]])]; try discriminate.
    exists d2. auto.
  - intros (w1 & H1 & ->). econstructor; [reflexivity|].
    eapply W_union_arm with (d := 0); [reflexivity|apply wire_enum; [reflexivity|split; [apply u32_0|reflexivity]]
      |reflexivity|reflexivity|reflexivity|exact H1].
Qed.

Lemma wire_rbody_rej p a r w :
  Wire p rpc_env (CIdent "Reply_body") (rbody_val 1 a r) w <->
  exists w1, Wire p rpc_env (CIdent "Rejected_reply") r w1 /\ w = be4 1 ++ w1.
Proof.
  split.
  - intros H. eapply w_ident in H; [|reflexivity].
    eapply w_union in H; [|reflexivity|reflexivity]. destruct H as (d1 & d2 & -> & Hd & H2).
    apply wire_enum in Hd; [|reflexivity]. destruct Hd as [Hs ->].
    cbn in H2. destruct H2 as [(f & t & v & [= <- <-] & [= <-] & H2)|(-> & [K|[K _]])]; try discriminate.
    exists d2. auto.
  - intros (w1 & H1 & ->). econstructor; [reflexivity|].
    eapply W_union_arm with (d := 1); [reflexivity|apply wire_enum; [reflexivity|split; [apply u32_1|reflexivity]]
      |reflexivity|reflexivity|reflexivity|exact H1].
Qed.
