(** Decoding and encoding of RPC messages in terms of the layouts of RpcSpec.v. *)
From Verif Require Import Bytes XdrLib Types Interp Spec Prim Meta Enc Dec Total Canon Runs Codec Inv
  RpcTypes RpcSpec RpcWire.
Open Scope string_scope.
Open Scope Z_scope.
Open Scope list_scope.

Lemma msg_fresh : fresh rpc_env msg_t zero_msg.
Proof. exists rpc_D. exact zero_msg_ok. Qed.
Lemma msg_wf : wf_ty rpc_D rpc_env msg_t. Proof. exact (proj1 (proj2 msg_good)). Qed.
Lemma msg_z : zero rpc_D rpc_env msg_t <> None. Proof. exact (proj2 (proj2 msg_good)). Qed.

(** Either the message decodes, or the reader ends in error. *)
Lemma msg_outcome buf :
  (exists w rest x, buf = w ++ rest /\ runs rpc_env msg_t (RD buf) zero_msg (RD rest) x /\
     Wire DEC rpc_env msg_t x w /\ has_ty rpc_env msg_t x)
  \/ (exists e r x, runs rpc_env msg_t (RD buf) zero_msg (mkXst (Some e) true r) x).
Proof.
  destruct (dec_outcome rpc_D rpc_env msg_t rpc_wf msg_wf msg_z buf zero_msg) as [(w & rest & x & -> & H & Hw)|H].
  - apply (fresh_ty rpc_env msg_t). exact msg_fresh.
  - reflexivity.
  - left. exists w, rest, x. split; [reflexivity|]. split; [exact H|]. split; [exact Hw|].
    eapply (runs_ty rpc_D); [exact rpc_wf|exact msg_wf| |exact H].
    apply (fresh_ty rpc_env msg_t). exact msg_fresh.
  - right. exact H.
Qed.

Lemma msg_decode w rest x : Wire DEC rpc_env msg_t x w -> canon rpc_env msg_t x -> has_ty rpc_env msg_t x ->
  runs rpc_env msg_t (RD (w ++ rest)) zero_msg (RD rest) x.
Proof.
  intros Hw Hc Ht. apply (proj1 (c06 rpc_D rpc_env msg_t rpc_wf msg_wf msg_z (w ++ rest) zero_msg msg_fresh) rest x).
  exists w. auto.
Qed.

(** *** Canonical messages *)
Lemma canon_auth f b : canon rpc_env (CIdent "Opaque_auth") (auth_val f (Some b)).
Proof.
  econstructor; [reflexivity|]. constructor. econstructor; [reflexivity| |].
  - econstructor; [reflexivity|]. constructor.
  - econstructor; [reflexivity| |constructor]. constructor.
Qed.

Lemma canon_cbody rv prog vers proc f1 b1 f2 b2 :
  canon rpc_env (CIdent "Call_body")
    (cbody_val rv prog vers proc (auth_val f1 (Some b1)) (auth_val f2 (Some b2))).
Proof.
  econstructor; [reflexivity|]. constructor.
  repeat (econstructor; [reflexivity|first [apply canon_auth|constructor]|]). constructor.
Qed.

Lemma canon_call xid rv prog vers proc f1 b1 f2 b2 :
  canon rpc_env msg_t (msg_val xid 0
    (cbody_val rv prog vers proc (auth_val f1 (Some b1)) (auth_val f2 (Some b2))) zero_rbody).
Proof.
  econstructor; [reflexivity|]. constructor. econstructor; [reflexivity|constructor|].
  econstructor; [reflexivity| |constructor].
  eapply K_union_arm with (d := 0); [reflexivity| |reflexivity|reflexivity|reflexivity|apply canon_cbody|].
  - econstructor; [reflexivity|constructor].
  - intros g tg x Hg H1 H2 Hx. cbn in Hg.
    destruct Hg as [[= <- <-]|[[= <- <-]|[[= <- <-]|[]]]]; try congruence.
    cbn in Hx. injection Hx as <-. exists 12%nat. reflexivity.
Qed.

Lemma canon_success xid f b :
  canon rpc_env msg_t (msg_val xid 1 zero_cbody
    (rbody_val 0 (areply_val (auth_val f (Some b)) 0 zero_mismatch) zero_rreply)).
Proof.
  econstructor; [reflexivity|]. constructor. econstructor; [reflexivity|constructor|].
  econstructor; [reflexivity| |constructor].
  eapply K_union_arm with (d := 1); [reflexivity| |reflexivity|reflexivity|reflexivity| |].
  - econstructor; [reflexivity|constructor].
  - econstructor; [reflexivity|].
    eapply K_union_arm with (d := 0); [reflexivity| |reflexivity|reflexivity|reflexivity| |].
    + econstructor; [reflexivity|constructor].
    + econstructor; [reflexivity|]. constructor. econstructor; [reflexivity|apply canon_auth|].
      econstructor; [reflexivity| |constructor].
      eapply K_union_arm with (d := 0); [reflexivity| |reflexivity|reflexivity|reflexivity| |].
      * econstructor; [reflexivity|constructor].
      * constructor.
      * intros g tg x Hg H1 H2 Hx. cbn in Hg.
        destruct Hg as [[= <- <-]|[[= <- <-]|[[= <- <-]|[]]]]; try congruence.
        cbn in Hx. injection Hx as <-. exists 12%nat. reflexivity.
    + intros g tg x Hg H1 H2 Hx. cbn in Hg.
      destruct Hg as [[= <- <-]|[[= <- <-]|[[= <- <-]|[]]]]; try congruence.
      cbn in Hx. injection Hx as <-. exists 12%nat. reflexivity.
  - intros g tg x Hg H1 H2 Hx. cbn in Hg.
    destruct Hg as [[= <- <-]|[[= <- <-]|[[= <- <-]|[]]]]; try congruence.
    cbn in Hx. injection Hx as <-. exists 12%nat. reflexivity.
Qed.

(** *** Typing of explicit messages *)
Lemma cbody_ty rv prog vers proc f1 o1 f2 o2 : u32 rv -> u32 prog -> u32 vers -> u32 proc ->
  u32 f1 -> u32 f2 ->
  has_ty rpc_env (CIdent "Call_body") (cbody_val rv prog vers proc (auth_val f1 o1) (auth_val f2 o2)).
Proof.
  intros. econstructor; [reflexivity|]. constructor.
  repeat (constructor; [first [apply auth_ty; assumption|constructor; assumption]|]). constructor.
Qed.
Lemma mm_ty lo hi : u32 lo -> u32 hi -> has_ty rpc_env (CStruct [("Low", CU32); ("High", CU32)]) (mm_val lo hi).
Proof. intros. constructor. repeat (constructor; [constructor; assumption|]). constructor. Qed.
Lemma enum_ty x z : lookup x rpc_env = Some CU32 -> u32 z -> has_ty rpc_env (CIdent x) (VInt z).
Proof. intros. econstructor; eauto. constructor. assumption. Qed.
Lemma areply_ty f o stat lo hi : u32 f -> u32 stat -> u32 lo -> u32 hi ->
  has_ty rpc_env (CIdent "Accepted_reply") (areply_val (auth_val f o) stat (mm_val lo hi)).
Proof.
  intros. econstructor; [reflexivity|]. constructor. constructor; [apply auth_ty; assumption|].
  constructor; [|constructor]. constructor.
  constructor; [apply enum_ty; [reflexivity|assumption]|].
  constructor; [constructor; reflexivity|]. constructor; [apply mm_ty; assumption|constructor].
Qed.
Lemma rreply_ty stat lo hi a : u32 stat -> u32 lo -> u32 hi -> u32 a ->
  has_ty rpc_env (CIdent "Rejected_reply") (rreply_val stat (mm_val lo hi) a).
Proof.
  intros. econstructor; [reflexivity|]. constructor.
  constructor; [apply enum_ty; [reflexivity|assumption]|].
  constructor; [apply mm_ty; assumption|].
  constructor; [apply enum_ty; [reflexivity|assumption]|]. constructor.
Qed.
Lemma rbody_ty stat a r : u32 stat -> has_ty rpc_env (CIdent "Accepted_reply") a ->
  has_ty rpc_env (CIdent "Rejected_reply") r -> has_ty rpc_env (CIdent "Reply_body") (rbody_val stat a r).
Proof.
  intros. econstructor; [reflexivity|]. constructor.
  constructor; [apply enum_ty; [reflexivity|assumption]|].
  constructor; [assumption|]. constructor; [assumption|]. constructor.
Qed.
Lemma msg_ty xid mt c r : u32 xid -> u32 mt -> has_ty rpc_env (CIdent "Call_body") c ->
  has_ty rpc_env (CIdent "Reply_body") r -> has_ty rpc_env msg_t (msg_val xid mt c r).
Proof.
  intros. econstructor; [reflexivity|]. constructor. constructor; [constructor; assumption|].
  constructor; [|constructor]. constructor.
  constructor; [apply enum_ty; [reflexivity|assumption]|].
  constructor; [assumption|]. constructor; [assumption|]. constructor.
Qed.
Lemma zero_rbody_ty : has_ty rpc_env (CIdent "Reply_body") zero_rbody.
Proof. apply rbody_ty; [apply u32_0|apply areply_ty; apply u32_0|apply rreply_ty; apply u32_0]. Qed.
Lemma zero_cbody_ty : has_ty rpc_env (CIdent "Call_body") zero_cbody.
Proof. apply cbody_ty; apply u32_0. Qed.

Lemma auth_u32 p f b w : auth p f b w -> u32 f.
Proof. intros [pad H _ _]. exact H. Qed.

(** ** Calls *)
Lemma decode_call buf xid rv prog vers proc f1 b1 f2 b2 args :
  is_call DEC buf xid rv prog vers proc f1 b1 f2 b2 args ->
  runs rpc_env msg_t (RD buf) zero_msg (RD args)
    (msg_val xid 0 (cbody_val rv prog vers proc (auth_val f1 (Some b1)) (auth_val f2 (Some b2))) zero_rbody).
Proof.
  intros (Hx & Hr & Hp & Hv & Hc & w1 & w2 & H1 & H2 & ->). apply msg_decode.
  - apply wire_msg_call. split; [exact Hx|]. eexists. split; [|reflexivity].
    apply wire_cbody. repeat (split; [assumption|]). exists w1, w2.
    split; [apply wire_auth; exact H1|]. split; [apply wire_auth; exact H2|]. reflexivity.
  - apply canon_call.
  - apply msg_ty; [exact Hx|apply u32_0| |apply zero_rbody_ty].
    apply cbody_ty; eauto using auth_u32.
Qed.

Lemma decode_call_inv buf rest x : runs rpc_env msg_t (RD buf) zero_msg (RD rest) x ->
  exists xid mt c r, x = msg_val xid mt c r /\ u32 xid /\ u32 mt /\
    (mt = 0 -> exists rv prog vers proc f1 o1 f2 o2,
       c = cbody_val rv prog vers proc (auth_val f1 o1) (auth_val f2 o2) /\
       is_call DEC buf xid rv prog vers proc f1 (bytes_of o1) f2 (bytes_of o2) rest).
Proof.
  intros H. destruct (msg_outcome buf) as [(w & r & y & -> & K & Hw & Hy)|(e & r & y & K)];
    destruct (runs_det _ _ _ _ _ _ _ _ H K) as [E <-]; [|discriminate].
  injection E as <-. clear K. destruct (ty_msg _ Hy) as (xid & mt & c & rb & -> & Hx & Hm & Hc & Hr).
  exists xid, mt, c, rb. split; [reflexivity|]. split; [exact Hx|]. split; [exact Hm|].
  intros ->. destruct (ty_cbody _ Hc) as (rv & prog & vers & proc & f1 & o1 & f2 & o2 & -> & ? & ? & ? & ? & ? & ?).
  exists rv, prog, vers, proc, f1, o1, f2, o2. split; [reflexivity|].
  apply wire_msg_call in Hw. destruct Hw as (_ & w1 & Hw & ->).
  apply wire_cbody in Hw. destruct Hw as (_ & _ & _ & _ & a1 & a2 & H1' & H2' & ->).
  apply wire_auth in H1', H2'.
  repeat (split; [assumption|]). exists a1, a2. split; [assumption|]. split; [assumption|].
  unfold call_hdr. rewrite <- !app_assoc. reflexivity.
Qed.

(** ** Replies *)
(** [buf] is an accepted, successful reply to [xid] followed by [res]. *)
Definition is_success (buf : list byte) (xid : Z) (res : list byte) : Prop :=
  u32 xid /\ exists f b verf, auth DEC f b verf /\ buf = reply_accepted xid verf 0 ++ res.

Lemma decode_success buf xid res : is_success buf xid res -> exists f b,
  runs rpc_env msg_t (RD buf) zero_msg (RD res)
    (msg_val xid 1 zero_cbody (rbody_val 0 (areply_val (auth_val f (Some b)) 0 zero_mismatch) zero_rreply)).
Proof.
  intros (Hx & f & b & verf & Ha & ->). exists f, b. apply msg_decode.
  - apply wire_msg_reply. split; [exact Hx|]. eexists. split; [|reflexivity].
    apply wire_rbody_acc. eexists. split; [|reflexivity].
    apply (wire_areply _ _ _ 0 0); [apply u32_0|apply u32_0|]. split; [apply u32_0|].
    exists verf. split; [apply wire_auth; exact Ha|]. unfold acc_tail. cbn [Z.eqb]. rewrite app_nil_r. reflexivity.
  - apply canon_success.
  - apply msg_ty; [exact Hx|apply u32_1|apply zero_cbody_ty|].
    apply rbody_ty; [apply u32_0| |apply rreply_ty; apply u32_0].
    apply areply_ty; eauto using auth_u32, u32_0.
Qed.

Lemma decode_reply_inv buf rest x : runs rpc_env msg_t (RD buf) zero_msg (RD rest) x ->
  get_int ["Body"; "Mtype"] x = 1 -> get_int ["Body"; "Rbody"; "Stat"] x = 0 ->
  get_int ["Body"; "Rbody"; "Areply"; "Reply_data"; "Stat"] x = 0 ->
  is_success buf (get_int ["Xid"] x) rest.
Proof.
  intros H Hm Hs Ha. destruct (msg_outcome buf) as [(w & r & y & -> & K & Hw & Hy)|(e & r & y & K)];
    destruct (runs_det _ _ _ _ _ _ _ _ H K) as [E <-]; [|discriminate].
  injection E as <-. clear K. destruct (ty_msg _ Hy) as (xid & mt & c & rb & -> & Hx & Hmt & Hc & Hr).
  destruct (ty_rbody _ Hr) as (stat & f & o & ast & lo & hi & rs & rlo & rhi & ra & -> & ? & ? & ? & ? & ? & ? & ? & ? & ?).
  cbn in Hm, Hs, Ha. subst mt stat ast. cbn [get_int get_path lookup msg_val String.eqb Ascii.eqb Bool.eqb].
  apply wire_msg_reply in Hw. destruct Hw as (_ & w1 & Hw & ->).
  apply wire_rbody_acc in Hw. destruct Hw as (w2 & Hw & ->).
  apply wire_areply in Hw; [|assumption|assumption]. destruct Hw as (_ & wv & Hv & ->).
  apply wire_auth in Hv. split; [exact Hx|]. exists f, (bytes_of o), wv. split; [exact Hv|].
  unfold reply_accepted, acc_tail. cbn [Z.eqb]. rewrite <- !app_assoc. reflexivity.
Qed.
