(** Which error Call returns. *)
From Verif Require Import Bytes XdrLib Types Interp Spec Prim Meta Enc Dec Total Canon Runs Codec Inv RpcTypes RpcSpec RpcWire RpcDec Io Client CallSpec ClientP ReplySpec.
Open Scope string_scope.
Open Scope Z_scope.
Open Scope list_scope.

(** ** Canonical messages *)
Ltac unsel := let g := fresh in let tg := fresh in let x := fresh in let Hg := fresh in intros g tg x Hg; intros; cbn in Hg;
  destruct Hg as [[= <- <-]|[[= <- <-]|[[= <- <-]|[]]]]; try congruence;
  match goal with Hx : lookup _ _ = Some _ |- _ => cbn in Hx; injection Hx as <- end; exists 12%nat; reflexivity.
Ltac enumk := apply K_ident with CU32; [reflexivity|constructor].
Lemma pick_none_ms mt (c r : string * cty) : mt <> 0 -> mt <> 1 -> pick_arm mt [([0], Some c); ([1], Some r)] None = None.
Proof. intros H0 H1. unfold pick_arm. cbn [find existsb fst]. destruct (Z.eqb_spec mt 0); [contradiction|]. destruct (Z.eqb_spec mt 1); [contradiction|]. reflexivity. Qed.

Lemma canon_msg mt : forall xid c r, mt = 0 /\ canon rpc_env (CIdent "Call_body") c /\ r = zero_rbody \/
  mt = 1 /\ c = zero_cbody /\ canon rpc_env (CIdent "Reply_body") r \/ mt <> 0 /\ mt <> 1 /\ c = zero_cbody /\ r = zero_rbody ->
  canon rpc_env msg_t (msg_val xid mt c r).
Proof.
  intros xid c r H. econstructor; [reflexivity|]. constructor. econstructor; [reflexivity|constructor|].
  econstructor; [reflexivity| |constructor]. destruct H as [(-> & H & ->)|[(-> & -> & H)|(H0 & H1 & -> & ->)]].
  - eapply K_union_arm with (d := 0); [reflexivity|enumk|reflexivity|reflexivity|reflexivity|exact H|unsel].
  - eapply K_union_arm with (d := 1); [reflexivity|enumk|reflexivity|reflexivity|reflexivity|exact H|unsel].
  - eapply K_union_void with (d := mt); [reflexivity|enumk|reflexivity|right; apply pick_none_ms; assumption|unsel].
Qed.
Lemma canon_rbody s : forall a r, s = 0 /\ canon rpc_env (CIdent "Accepted_reply") a /\ r = zero_rreply \/
  s = 1 /\ a = zero_areply /\ canon rpc_env (CIdent "Rejected_reply") r \/ s <> 0 /\ s <> 1 /\ a = zero_areply /\ r = zero_rreply ->
  canon rpc_env (CIdent "Reply_body") (rbody_val s a r).
Proof.
  intros a r H. econstructor; [reflexivity|]. destruct H as [(-> & H & ->)|[(-> & -> & H)|(H0 & H1 & -> & ->)]].
  - eapply K_union_arm with (d := 0); [reflexivity|enumk|reflexivity|reflexivity|reflexivity|exact H|unsel].
  - eapply K_union_arm with (d := 1); [reflexivity|enumk|reflexivity|reflexivity|reflexivity|exact H|unsel].
  - eapply K_union_void with (d := s); [reflexivity|enumk|reflexivity|right; apply pick_none_ms; assumption|unsel].
Qed.
Lemma canon_mm lo hi : canon rpc_env (CStruct [("Low", CU32); ("High", CU32)]) (mm_val lo hi).
Proof. constructor. repeat (econstructor; [reflexivity|constructor|]). constructor. Qed.
Lemma canon_areply f b stat lo hi : (stat <> 2 -> lo = 0 /\ hi = 0) ->
  canon rpc_env (CIdent "Accepted_reply") (areply_val (auth_val f (Some b)) stat (mm_val lo hi)).
Proof.
  intros H. econstructor; [reflexivity|]. constructor. econstructor; [reflexivity|apply canon_auth|].
  econstructor; [reflexivity| |constructor]. destruct (Z.eq_dec stat 2) as [->|N2].
  - eapply K_union_arm with (d := 2); [reflexivity|enumk|reflexivity|reflexivity|reflexivity|apply canon_mm|unsel].
  - destruct (H N2) as [-> ->]. destruct (Z.eq_dec stat 0) as [->|N0].
    + eapply K_union_arm with (d := 0); [reflexivity|enumk|reflexivity|reflexivity|reflexivity|constructor|unsel].
    + eapply K_union_void with (d := stat); [reflexivity|enumk|reflexivity| |unsel]. unfold pick_arm. cbn [find existsb fst].
      destruct (Z.eqb_spec stat 0); [contradiction|]. destruct (Z.eqb_spec stat 2); [contradiction|]. left. reflexivity.
Qed.
Lemma canon_rreply s lo hi a : (s <> 0 -> lo = 0 /\ hi = 0) -> (s <> 1 -> a = 0) ->
  canon rpc_env (CIdent "Rejected_reply") (rreply_val s (mm_val lo hi) a).
Proof.
  intros H0 H1. econstructor; [reflexivity|]. destruct (Z.eq_dec s 0) as [->|N0].
  - rewrite (H1 ltac:(lia)). eapply K_union_arm with (d := 0); [reflexivity|enumk|reflexivity|reflexivity|reflexivity|apply canon_mm|unsel].
  - destruct (H0 N0) as [-> ->]. destruct (Z.eq_dec s 1) as [->|N1].
    + eapply K_union_arm with (d := 1); [reflexivity|enumk|reflexivity|reflexivity|reflexivity|enumk|unsel].
    + rewrite (H1 N1). eapply K_union_void with (d := s); [reflexivity|enumk|reflexivity|right; apply pick_none_ms; assumption|unsel].
Qed.

(** ** Encodings *)
Lemma wire_rreply p s lo hi a w : union_listed p = false -> u32 s -> u32 lo -> u32 hi -> u32 a ->
  (Wire p rpc_env (CIdent "Rejected_reply") (rreply_val s (mm_val lo hi) a) w <-> w = be4 s ++ rej_tail s lo hi a).
Proof.
  intros Hp Hs Hlo Hhi Ha. unfold rej_tail. split.
  - intros H. eapply w_ident in H; [|reflexivity]. eapply w_union in H; [|reflexivity|reflexivity].
    destruct H as (d1 & d2 & -> & Hd & H2). apply wire_enum in Hd; [|reflexivity]. destruct Hd as [_ ->]. f_equal.
    unfold pick_arm in H2. cbn [find existsb fst] in H2. rewrite !orb_false_r in H2.
    destruct (Z.eqb_spec s 0) as [->|N0]; [|destruct (Z.eqb_spec s 1) as [->|N1]]; cbn [snd] in H2.
    + destruct H2 as [(f & t & v & [= <- <-] & [= <-] & H2)|(-> & [K|[K _]])]; try discriminate. apply wire_mm in H2. apply H2.
    + destruct H2 as [(f & t & v & [= <- <-] & [= <-] & H2)|(-> & [K|[K _]])]; try discriminate. apply wire_enum in H2; [apply H2|reflexivity].
    + destruct H2 as [(f & t & v & K & _)|(-> & _)]; [discriminate|reflexivity].
  - intros ->. econstructor; [reflexivity|]. destruct (Z.eqb_spec s 0) as [->|N0]; [|destruct (Z.eqb_spec s 1) as [->|N1]].
    + eapply W_union_arm with (d := 0); [reflexivity|apply wire_enum; auto|reflexivity|reflexivity|reflexivity|apply wire_mm; auto].
    + eapply W_union_arm with (d := 1); [reflexivity|apply wire_enum; auto|reflexivity|reflexivity|reflexivity|apply wire_enum; auto].
    + rewrite app_nil_r. eapply W_union_unlisted with (d := s); [reflexivity|apply wire_enum; auto|reflexivity|apply pick_none_ms; assumption|exact Hp].
Qed.
Lemma wire_msg_other p xid mt c r w : union_listed p = false -> mt <> 0 -> mt <> 1 ->
  (Wire p rpc_env msg_t (msg_val xid mt c r) w <-> u32 xid /\ u32 mt /\ w = be4 xid ++ be4 mt).
Proof.
  intros Hp N0 N1. split.
  - intros H. eapply w_ident in H; [|reflexivity]. apply w_struct in H.
    eapply wf_cons in H; [|reflexivity]. destruct H as (b1 & r1 & -> & H1 & H).
    eapply wf_cons in H; [|reflexivity]. destruct H as (b2 & r2 & -> & H2 & H).
    apply wf_nil in H. subst r2. rewrite app_nil_r. apply wire_u32 in H1. destruct H1 as [? ->].
    eapply w_union in H2; [|reflexivity|reflexivity]. destruct H2 as (d1 & d2 & -> & Hd & H2).
    apply wire_enum in Hd; [|reflexivity]. destruct Hd as [Hs ->]. rewrite pick_none_ms in H2 by assumption.
    destruct H2 as [(f & t & v & K & _)|(-> & _)]; [discriminate|]. rewrite app_nil_r. auto.
  - intros (Hx & Hm & ->). econstructor; [reflexivity|]. constructor. econstructor; [reflexivity|apply wire_u32; auto|].
    rewrite <- (app_nil_r (be4 mt)). econstructor; [reflexivity| |constructor].
    eapply W_union_unlisted with (d := mt); [reflexivity|apply wire_enum; auto|reflexivity|apply pick_none_ms; assumption|exact Hp].
Qed.
Lemma wire_rbody_other p s a r w : union_listed p = false -> s <> 0 -> s <> 1 ->
  (Wire p rpc_env (CIdent "Reply_body") (rbody_val s a r) w <-> u32 s /\ w = be4 s).
Proof.
  intros Hp N0 N1. split.
  - intros H. eapply w_ident in H; [|reflexivity]. eapply w_union in H; [|reflexivity|reflexivity]. destruct H as (d1 & d2 & -> & Hd & H2).
    apply wire_enum in Hd; [|reflexivity]. destruct Hd as [Hs ->]. rewrite pick_none_ms in H2 by assumption.
    destruct H2 as [(f & t & v & K & _)|(-> & _)]; [discriminate|]. rewrite app_nil_r. auto.
  - intros (Hs & ->). econstructor; [reflexivity|].
    eapply W_union_unlisted with (d := s); [reflexivity|apply wire_enum; auto|reflexivity|apply pick_none_ms; assumption|exact Hp].
Qed.

(** ** Decoded messages and their kinds *)
Definition kind_val (x : val) (xid : Z) (k : msg_kind) : Prop :=
  get_int ["Xid"] x = xid /\
  let mt := get_int ["Body"; "Mtype"] x in
  let st := get_int ["Body"; "Rbody"; "Stat"] x in
  match k with
  | KCall => mt = 0
  | KOther z => mt = z /\ z <> 0 /\ z <> 1
  | KAccepted s => mt = 1 /\ st = 0 /\ get_int ["Body"; "Rbody"; "Areply"; "Reply_data"; "Stat"] x = s
  | KDenied s => mt = 1 /\ st = 1 /\ get_int ["Body"; "Rbody"; "Rreply"; "Stat"] x = s
  | KStat s => mt = 1 /\ st = s /\ s <> 0 /\ s <> 1 /\ get_int ["Body"; "Rbody"; "Rreply"; "Stat"] x = 0
  end.
Lemma kind_det x i k i' k' : kind_val x i k -> kind_val x i' k' -> i = i' /\ k = k'.
Proof.
  intros [<- H] [<- H']. split; [reflexivity|]. destruct k, k'; cbn in H, H'; try reflexivity; try lia; f_equal; lia.
Qed.

Lemma head_decodes m xid k rest : msg_head m xid k rest -> exists x, runs rpc_env msg_t (RD m) zero_msg (RD rest) x /\ kind_val x xid k.
Proof.
  intros H. destruct H as [m xid rv prog vers proc f1 b1 f2 b2 rest Hc|xid mt rest Hx Hm N0 N1|xid f b verf stat rest Hx Ha Hs N2
    |xid f b verf lo hi rest Hx Ha Hlo Hhi|xid lo hi rest Hx Hlo Hhi|xid why rest Hx Hw|xid r rest Hx Hr N0 N1|xid s rest Hx Hs N0 N1].
  - eexists. split; [exact (decode_call _ _ _ _ _ _ _ _ _ _ _ Hc)|]. split; reflexivity.
  - exists (msg_val xid mt zero_cbody zero_rbody). split; [|split; [reflexivity|]; cbn; auto]. rewrite app_assoc. apply msg_decode.
    + apply wire_msg_other; auto.
    + apply canon_msg. right. right. auto.
    + apply msg_ty; [exact Hx|exact Hm|apply zero_cbody_ty|apply zero_rbody_ty].
  - exists (msg_val xid 1 zero_cbody (rbody_val 0 (areply_val (auth_val f (Some b)) stat zero_mismatch) zero_rreply)). split; [|split; [reflexivity|]; cbn; auto].
    apply msg_decode.
    + apply wire_msg_reply. split; [exact Hx|]. eexists. split; [apply wire_rbody_acc; eexists; split; [|reflexivity]|unfold reply_accepted; reflexivity].
      apply (wire_areply _ _ _ 0 0); [apply u32_0|apply u32_0|]. split; [exact Hs|]. exists verf. split; [apply wire_auth; exact Ha|].
      unfold acc_tail. destruct (Z.eqb_spec stat 2); [contradiction|]. rewrite app_nil_r. reflexivity.
    + apply canon_msg. right. left. split; [reflexivity|]. split; [reflexivity|]. apply canon_rbody. left. split; [reflexivity|]. split; [|reflexivity]. apply (canon_areply f b stat 0 0). auto.
    + apply msg_ty; [exact Hx|apply u32_1|apply zero_cbody_ty|]. apply rbody_ty; [apply u32_0| |apply rreply_ty; apply u32_0]. apply areply_ty; eauto using auth_u32, u32_0.
  - exists (msg_val xid 1 zero_cbody (rbody_val 0 (areply_val (auth_val f (Some b)) 2 (mm_val lo hi)) zero_rreply)). split; [|split; [reflexivity|]; cbn; auto].
    replace (reply_accepted xid verf 2 ++ be4 lo ++ be4 hi ++ rest) with ((reply_accepted xid verf 2 ++ be4 lo ++ be4 hi) ++ rest) by (rewrite <- !app_assoc; reflexivity).
    apply msg_decode.
    + apply wire_msg_reply. split; [exact Hx|]. exists (be4 0 ++ verf ++ be4 2 ++ be4 lo ++ be4 hi). split; [|unfold reply_accepted; rewrite <- !app_assoc; reflexivity].
      apply wire_rbody_acc. eexists. split; [|reflexivity].
      apply (wire_areply _ _ _ lo hi); [exact Hlo|exact Hhi|]. split; [unfold u32; lia|]. exists verf. split; [apply wire_auth; exact Ha|reflexivity].
    + apply canon_msg. right. left. split; [reflexivity|]. split; [reflexivity|]. apply canon_rbody. left. split; [reflexivity|]. split; [|reflexivity]. apply (canon_areply f b 2 lo hi). congruence.
    + apply msg_ty; [exact Hx|apply u32_1|apply zero_cbody_ty|]. apply rbody_ty; [apply u32_0| |apply rreply_ty; apply u32_0]. apply areply_ty; eauto using auth_u32. unfold u32. lia.
  - exists (msg_val xid 1 zero_cbody (rbody_val 1 zero_areply (rreply_val 0 (mm_val lo hi) 0))). split; [|split; [reflexivity|]; cbn; auto]. apply msg_decode.
    + apply wire_msg_reply. split; [exact Hx|]. eexists. split; [apply wire_rbody_rej; eexists; split; [apply wire_rreply; auto using u32_0; reflexivity|reflexivity]|].
      unfold reply_denied_mismatch, rej_tail. reflexivity.
    + apply canon_msg. right. left. split; [reflexivity|]. split; [reflexivity|]. apply canon_rbody. right. left. split; [reflexivity|]. split; [reflexivity|]. apply canon_rreply; congruence.
    + apply msg_ty; [exact Hx|apply u32_1|apply zero_cbody_ty|]. apply rbody_ty; [apply u32_1| |apply rreply_ty; auto using u32_0]. apply areply_ty; apply u32_0.
  - exists (msg_val xid 1 zero_cbody (rbody_val 1 zero_areply (rreply_val 1 zero_mismatch why))). split; [|split; [reflexivity|]; cbn; auto].
    replace (be4 xid ++ be4 1 ++ be4 1 ++ be4 1 ++ be4 why ++ rest) with ((be4 xid ++ be4 1 ++ be4 1 ++ be4 1 ++ be4 why) ++ rest) by (rewrite <- !app_assoc; reflexivity). apply msg_decode.
    + apply wire_msg_reply. split; [exact Hx|]. eexists. split; [apply wire_rbody_rej; eexists; split; [apply (wire_rreply DEC 1 0 0 why); auto using u32_0, u32_1; reflexivity|reflexivity]|].
      unfold rej_tail. reflexivity.
    + apply canon_msg. right. left. split; [reflexivity|]. split; [reflexivity|]. apply canon_rbody. right. left. split; [reflexivity|]. split; [reflexivity|]. apply (canon_rreply 1 0 0 why); auto; congruence.
    + apply msg_ty; [exact Hx|apply u32_1|apply zero_cbody_ty|]. apply rbody_ty; [apply u32_1| |apply (rreply_ty 1 0 0 why); auto using u32_0, u32_1]. apply areply_ty; apply u32_0.
  - exists (msg_val xid 1 zero_cbody (rbody_val 1 zero_areply (rreply_val r zero_mismatch 0))). split; [|split; [reflexivity|]; cbn; auto].
    replace (be4 xid ++ be4 1 ++ be4 1 ++ be4 r ++ rest) with ((be4 xid ++ be4 1 ++ be4 1 ++ be4 r) ++ rest) by (rewrite <- !app_assoc; reflexivity). apply msg_decode.
    + apply wire_msg_reply. split; [exact Hx|]. eexists. split; [apply wire_rbody_rej; eexists; split; [apply (wire_rreply DEC r 0 0 0); auto using u32_0; reflexivity|reflexivity]|].
      unfold rej_tail. destruct (Z.eqb_spec r 0); [contradiction|]. destruct (Z.eqb_spec r 1); [contradiction|]. rewrite app_nil_r. reflexivity.
    + apply canon_msg. right. left. split; [reflexivity|]. split; [reflexivity|]. apply canon_rbody. right. left. split; [reflexivity|]. split; [reflexivity|]. apply (canon_rreply r 0 0 0); auto.
    + apply msg_ty; [exact Hx|apply u32_1|apply zero_cbody_ty|]. apply rbody_ty; [apply u32_1| |apply (rreply_ty r 0 0 0); auto using u32_0]. apply areply_ty; apply u32_0.
  - exists (msg_val xid 1 zero_cbody (rbody_val s zero_areply zero_rreply)). split; [|split; [reflexivity|]; cbn; auto].
    replace (be4 xid ++ be4 1 ++ be4 s ++ rest) with ((be4 xid ++ be4 1 ++ be4 s) ++ rest) by (rewrite <- !app_assoc; reflexivity). apply msg_decode.
    + apply wire_msg_reply. split; [exact Hx|]. eexists. split; [apply wire_rbody_other; auto|reflexivity].
    + apply canon_msg. right. left. split; [reflexivity|]. split; [reflexivity|]. apply canon_rbody. right. right. auto.
    + apply msg_ty; [exact Hx|apply u32_1|apply zero_cbody_ty|]. apply rbody_ty; [exact Hs| |apply rreply_ty; apply u32_0]. apply areply_ty; apply u32_0.
Qed.

Lemma decoded_head m rest x : runs rpc_env msg_t (RD m) zero_msg (RD rest) x -> exists xid k, msg_head m xid k rest /\ kind_val x xid k.
Proof.
  intros H. pose proof (runs_fresh_canon rpc_D rpc_env msg_t rpc_wf msg_wf m zero_msg rest x msg_fresh H) as Hk.
  destruct (msg_outcome m) as [(w & r & y & -> & K & Hw & Hy)|(e & r & y & K)];
    destruct (runs_det _ _ _ _ _ _ _ _ H K) as [E <-]; [|discriminate].
  injection E as <-. clear K. destruct (ty_msg _ Hy) as (xid & mt & c & rb & -> & Hx & Hmt & Hc & Hr).
  destruct (Z.eq_dec mt 0) as [->|N0].
  { destruct (ty_cbody _ Hc) as (rv & prog & vers & proc & f1 & o1 & f2 & o2 & -> & ? & ? & ? & ? & ? & ?).
    apply wire_msg_call in Hw. destruct Hw as (_ & w1 & Hw & ->).
    apply wire_cbody in Hw. destruct Hw as (_ & _ & _ & _ & a1 & a2 & H1' & H2' & ->). apply wire_auth in H1', H2'.
    exists xid, KCall. split; [|split; reflexivity]. apply (H_call _ xid rv prog vers proc f1 (bytes_of o1) f2 (bytes_of o2)). repeat (split; [assumption|]). exists a1, a2. split; [assumption|]. split; [assumption|].
    unfold call_hdr. rewrite <- !app_assoc. reflexivity. }
  destruct (Z.eq_dec mt 1) as [->|N1].
  2:{ apply wire_msg_other in Hw; auto. destruct Hw as (_ & _ & ->). exists xid, (KOther mt). split; [rewrite <- app_assoc; constructor; assumption|]. split; [reflexivity|]. cbn. auto. }
  destruct (ty_rbody _ Hr) as (st & f & o & ast & lo & hi & rs & rlo & rhi & ra & -> & Hst & Hf & Hast & Hlo & Hhi & Hrs & Hrlo & Hrhi & Hra).
  apply wire_msg_reply in Hw. destruct Hw as (_ & w1 & Hw & ->).
  destruct (Z.eq_dec st 0) as [->|M0].
  { apply wire_rbody_acc in Hw. destruct Hw as (w2 & Hw & ->). apply wire_areply in Hw; [|assumption|assumption]. destruct Hw as (_ & wv & Hv & ->). apply wire_auth in Hv.
    exists xid, (KAccepted ast). split; [|split; [reflexivity|]; cbn; auto]. unfold acc_tail. destruct (Z.eqb_spec ast 2) as [->|N2].
    - replace ((be4 xid ++ be4 1 ++ be4 0 ++ wv ++ be4 2 ++ be4 lo ++ be4 hi) ++ rest) with (reply_accepted xid wv 2 ++ be4 lo ++ be4 hi ++ rest) by (unfold reply_accepted; rewrite <- !app_assoc; reflexivity).
      eapply H_prog_mismatch; eassumption.
    - rewrite app_nil_r. change (be4 xid ++ be4 1 ++ be4 0 ++ wv ++ be4 ast) with (reply_accepted xid wv ast). eapply H_accepted; eassumption. }
  destruct (Z.eq_dec st 1) as [->|M1].
  { apply wire_rbody_rej in Hw. destruct Hw as (w2 & Hw & ->). apply wire_rreply in Hw; auto. subst w2.
    exists xid, (KDenied rs). split; [|split; [reflexivity|]; cbn; auto]. unfold rej_tail. destruct (Z.eqb_spec rs 0) as [->|R0]; [|destruct (Z.eqb_spec rs 1) as [->|R1]].
    - change (be4 xid ++ be4 1 ++ be4 1 ++ be4 0 ++ be4 rlo ++ be4 rhi) with (reply_denied_mismatch xid rlo rhi). apply H_rpc_mismatch; assumption.
    - rewrite <- !app_assoc. apply H_auth_error; assumption.
    - rewrite app_nil_r, <- !app_assoc. apply H_denied; assumption. }
  apply wire_rbody_other in Hw; auto. destruct Hw as (_ & ->). exists xid, (KStat st). split; [rewrite <- !app_assoc; apply H_stat; assumption|].
  split; [reflexivity|]. cbn. repeat (split; [auto; fail|]).
  assert (Hb : canon rpc_env (CIdent "Reply_body") (rbody_val st (areply_val (auth_val f o) ast (mm_val lo hi)) (rreply_val rs (mm_val rlo rhi) ra))).
  { clear - Hk. inversion Hk as [| | | | | | | | | | | | | |x t v Hl Hv]; subst. injection Hl as <-.
    inversion Hv as [| | | | | | | | | | |fs l Hl| | |]; subst.
    inversion Hl as [|f1 t1 fs1 l1 v1 L1 C1 Hl2]; subst. inversion Hl2 as [|f2 t2 fs2 l2 v2 L2 C2 Hl3]; subst. injection L2 as <-.
    inversion C2 as [| | | | | | | | | | | |sw st' arms def l dv d f0 t v A1 A2 A3 A4 A5 A6 A7|sw st' arms def l dv d A1 A2 A3 A4 A5|]; subst; injection A1 as <-; injection A3 as <-.
    - injection A4 as <- <-. injection A5 as <-. exact A6.
    - destruct A4; discriminate. }
  inversion Hb as [| | | | | | | | | | | | | |x t v Hl Hv]; subst. injection Hl as <-.
  inversion Hv as [| | | | | | | | | | | |sw st' arms def l dv d f0 t v A1 A2 A3 A4 A5 A6 A7|sw st' arms def l dv d A1 A2 A3 A4 A5|]; subst; injection A1 as <-; injection A3 as <-.
  - rewrite pick_none_ms in A4 by assumption. discriminate.
  - destruct (A5 "Rreply" (CIdent "Rejected_reply") (rreply_val rs (mm_val rlo rhi) ra)) as [n Hn]; [cbn; auto|congruence|reflexivity|].
    assert (Hz : zero 12 rpc_env (CIdent "Rejected_reply") = Some zero_rreply) by reflexivity.
    assert (E : zero (n + 12) rpc_env (CIdent "Rejected_reply") = Some (rreply_val rs (mm_val rlo rhi) ra)) by (eapply zero_mono; [|exact Hn]; lia).
    assert (E' : zero (n + 12) rpc_env (CIdent "Rejected_reply") = Some zero_rreply) by (eapply zero_mono; [|exact Hz]; lia).
    rewrite E in E'. injection E' as -> _ _ _. reflexivity.
Qed.

Lemma head_unique m x k r x' k' r' : msg_head m x k r -> msg_head m x' k' r' -> x = x' /\ k = k' /\ r = r'.
Proof.
  intros H H'. destruct (head_decodes _ _ _ _ H) as (v & R & V). destruct (head_decodes _ _ _ _ H') as (v' & R' & V').
  destruct (runs_det _ _ _ _ _ _ _ _ R R') as [[= ->] <-]. destruct (kind_det _ _ _ _ _ V V') as [-> ->]. auto.
Qed.

Lemma reply_verdict xid m resp : xv_ok resp -> exists N v e, verdict xid m resp v e /\ forall n, (N <= n)%nat -> call_reply n xid m resp = Ret (v, e).
Proof.
  intros ((D & HwE & Hwt & Hz) & Htr).
  destruct (msg_outcome m) as [(w & rest & x & Em & [n1 K1] & _ & _)|(e & r & x & [n1 K1])].
  2:{ exists n1, (xv_val resp), (Some (CXdr e)). split.
      - apply V_garbled. intros i k rest Hh. destruct (head_decodes _ _ _ _ Hh) as (v & R & _).
        destruct (runs_det _ _ _ _ _ _ _ _ (ex_intro _ n1 K1) R) as [E _]. discriminate.
      - intros n Hn. unfold call_reply. change (MakeReader m) with (RD m). rewrite (xdr_mono n1 n _ _ _ _ _ Hn K1). reflexivity. }
  assert (Hr : runs rpc_env msg_t (RD m) zero_msg (RD rest) x) by (exists n1; exact K1).
  destruct (decoded_head m rest x Hr) as (i & k & Hh & Hi & Hk).
  assert (R : forall e, refusal xid i k = Some e -> (forall n, (n1 <= n)%nat -> call_reply n xid m resp = Ret (xv_val resp, Some e)) ->
    exists N v e, verdict xid m resp v e /\ forall n, (N <= n)%nat -> call_reply n xid m resp = Ret (v, e)).
  { intros e He HR. exists n1, (xv_val resp), (Some e). split; [eapply V_refused; eassumption|exact HR]. }
  assert (U : forall n, (n1 <= n)%nat -> xdr n rpc_env msg_t (MakeReader m) zero_msg = Ret (RD rest, x)) by (intros n Hn; exact (xdr_mono n1 n _ _ _ _ _ Hn K1)).
  destruct (Z.eqb_spec i xid) as [E1|E1].
  2:{ eapply R.
      - unfold refusal. destruct (Z.eqb_spec i xid); [contradiction|]. reflexivity.
      - intros n Hn. unfold call_reply. rewrite U by exact Hn. cbn [obind Error x_err]. rewrite Hi. destruct (Z.eqb_spec i xid); [contradiction|]. reflexivity. }
  rewrite E1 in Hi, Hh, R. clear E1. rename Hi into E1. unfold refusal in R. rewrite Z.eqb_refl in R.
  assert (C : forall e, (if negb (get_int ["Body"; "Mtype"] x =? REPLY) then Some (CNotReply (get_int ["Body"; "Mtype"] x))
     else if negb (get_int ["Body"; "Rbody"; "Stat"] x =? MSG_ACCEPTED) then Some (CDenied (get_int ["Body"; "Rbody"; "Rreply"; "Stat"] x))
     else if negb (get_int ["Body"; "Rbody"; "Areply"; "Reply_data"; "Stat"] x =? SUCCESS) then Some (CAccept (get_int ["Body"; "Rbody"; "Areply"; "Reply_data"; "Stat"] x)) else None) = Some e ->
     forall n, (n1 <= n)%nat -> call_reply n xid m resp = Ret (xv_val resp, Some e)).
  { intros e He n Hn. unfold call_reply. rewrite U by exact Hn. cbn [obind Error x_err]. rewrite E1, Z.eqb_refl. cbn [negb].
    destruct (negb (get_int ["Body"; "Mtype"] x =? REPLY)); [congruence|]. destruct (negb (get_int ["Body"; "Rbody"; "Stat"] x =? MSG_ACCEPTED)); [congruence|].
    destruct (negb (get_int ["Body"; "Rbody"; "Areply"; "Reply_data"; "Stat"] x =? SUCCESS)); [congruence|discriminate]. }
  unfold REPLY, MSG_ACCEPTED, SUCCESS in C.
  destruct k as [|mt|s|s|s]; cbv zeta in Hk.
  - eapply R; [reflexivity|]. apply C. rewrite Hk. reflexivity.
  - destruct Hk as (M & N0 & N1). eapply R; [reflexivity|]. apply C. rewrite M. destruct (Z.eqb_spec mt 1); [contradiction|]. reflexivity.
  - destruct Hk as (M & S0 & A). destruct (Z.eqb_spec s 0) as [->|N0].
    2:{ eapply R; [reflexivity|]. apply C. rewrite M, S0, A. cbn [negb Z.eqb Pos.eqb]. destruct (Z.eqb_spec s 0); [contradiction|]. reflexivity. }
    destruct (runs_dec D _ _ HwE Hwt Hz rest (xv_val resp) Htr) as (s' & v & n2 & K2).
    exists (n1 + n2)%nat, v, (option_map CXdr (x_err s')). split.
    + eapply V_result; [exact Hh|]. apply Decode_runs. exists s'. split; [exists n2; exact K2|reflexivity].
    + intros n Hn. unfold call_reply. rewrite U by lia. cbn [obind Error x_err].
      rewrite E1, Z.eqb_refl, M, S0, A. unfold REPLY, MSG_ACCEPTED, SUCCESS. cbn [negb Z.eqb Pos.eqb].
      rewrite (xdr_mono n2 n _ _ _ _ _ ltac:(lia) K2). cbn [obind Error]. unfold Error. destruct (x_err s'); reflexivity.
  - destruct Hk as (M & S1 & A). eapply R; [reflexivity|]. apply C. rewrite M, S1, A. reflexivity.
  - destruct Hk as (M & S1 & N0 & N1 & A). eapply R; [reflexivity|]. apply C. rewrite M, S1, A. cbn [negb Z.eqb Pos.eqb]. destruct (Z.eqb_spec s 0); [contradiction|]. reflexivity.
Qed.

(** ** Call *)
Lemma calls_go {S} (C : conn S) c s q c' s' v e : client_ok c -> req_ok q -> Calls C c s q c' s' v e ->
  c' = incr_xid c /\ call_goes C (next_xid c) (cl_prog c) (cl_vers c) s q s' v e.
Proof.
  intros Hc Hq [n H].
  destruct (call_request_spec _ _ (incr_ok _ Hc) Hq) as (N & [[_ (msg & Hm & HN)]|[Hne (e0 & HN)]]).
  2:{ apply (Call_mono n (n + N)) in H; [|lia]. unfold Call in H. rewrite HN in H by lia. injection H as <- <- <- <-. split; [reflexivity|]. apply G_unencodable. exact Hne. }
  change (request (next_xid c) (cl_prog c) (cl_vers c) q msg) in Hm.
  apply (Call_mono n (n + N)) in H; [|lia]. set (k := (n + N)%nat) in *.
  unfold Call in H. rewrite (HN k ltac:(unfold k; lia)) in H. cbn [obind] in H. rewrite mark_eq in H.
  destruct (c_write C s (mark (zlen msg) ++ msg)) as [s1 [e1|]] eqn:Ew.
  { injection H as <- <- <- <-. split; [reflexivity|]. eapply G_write; eassumption. }
  apply obind_ret in H. destruct H as ([[s2 hdr] e2] & H2 & H).
  assert (R2 : ReadFull C s1 4 s2 hdr e2) by (exists k; exact H2).
  destruct e2 as [e2|].
  { injection H as <- <- <- <-. split; [reflexivity|]. eapply G_header; eassumption. }
  destruct (read_full_len _ _ _ _ _ _ _ H2) as (hd & Eh & Hl). cbn [app] in Eh. subst hd.
  rewrite get_u32_val in H by exact Hl.
  destruct (be4_be_val _ Hl) as [_ Hu]. rewrite last_frag in H by exact Hu.
  destruct (Z.ltb_spec (be_val hdr) (2 ^ 31)) as [Hlt|Hge].
  { injection H as <- <- <- <-. split; [reflexivity|]. eapply G_fragment; eassumption. }
  rewrite low31 in H by assumption.
  apply obind_ret in H. destruct H as ([[s3 buf] e3] & H3 & H).
  assert (R3 : ReadFull C s2 (be_val hdr - 2 ^ 31) s3 buf e3) by (exists k; exact H3).
  destruct e3 as [e3|].
  { injection H as <- <- <- <-. split; [reflexivity|]. eapply G_body; eassumption. }
  apply obind_ret in H. destruct H as ([v4 e4] & H4 & H). injection H as <- <- <- <-.
  split; [reflexivity|]. eapply G_reply; try eassumption.
  destruct (reply_verdict (next_xid c) buf (rq_resp q)) as (N' & v' & e' & Ho & HN').
  { exact (proj2 (proj2 (proj2 (proj2 Hq)))). }
  apply (call_reply_mono k (k + N')) in H4; [|lia]. change (cl_xid (incr_xid c)) with (next_xid c) in H4.
  rewrite (HN' (k + N')%nat ltac:(lia)) in H4. injection H4 as <- <-. exact Ho.
Qed.

(** A reply that has arrived decides. *)
Lemma call_goes_reply {S} (C : conn S) xid prog vers s q s1 s2 s3 hdr m s' v e : encodable q ->
  (forall msg, request xid prog vers q msg -> c_write C s (mark (zlen msg) ++ msg) = (s1, None)) ->
  ReadFull C s1 4 s2 hdr None -> 2 ^ 31 <= be_val hdr -> ReadFull C s2 (be_val hdr - 2 ^ 31) s3 m None ->
  call_goes C xid prog vers s q s' v e -> s' = s3 /\ verdict xid m (rq_resp q) v e.
Proof.
  intros He Hw R1 Hb R2 H.
  destruct H as [e Hn|msg t1 e Hm W|msg t1 t2 d e Hm W Q1|msg t1 t2 hdr' Hm W Q1 Hb'|msg t1 t2 t3 hdr' d e Hm W Q1 Hb' Q2|msg t1 t2 t3 hdr' m' v e Hm W Q1 Hb' Q2 V];
    [contradiction| | | | |]; rewrite (Hw _ Hm) in W; try discriminate W; injection W as <-;
    destruct (ReadFull_det _ _ _ _ _ _ _ _ _ R1 Q1) as (<- & <- & E1); try discriminate E1; try lia;
    destruct (ReadFull_det _ _ _ _ _ _ _ _ _ R2 Q2) as (<- & <- & E2); try discriminate E2. auto.
Qed.
Lemma stream_verdict c q cs en out m rest : client_ok c -> req_ok q -> encodable q ->
  chunks_ok cs -> List.concat cs = record m ++ rest -> zlen m < 2 ^ 31 ->
  exists msg cs' v e,
    Calls stream_conn c (mkStream cs en out) q (incr_xid c) (mkStream cs' en (out ++ [mark (zlen msg) ++ msg])) v e /\
    request (next_xid c) (cl_prog c) (cl_vers c) q msg /\
    chunks_ok cs' /\ List.concat cs' = rest /\ verdict (next_xid c) m (rq_resp q) v e.
Proof.
  intros Hc Hq He Hcs Hcat Hm. destruct (c30_one c q cs en out m rest Hc Hq He Hcs Hcat Hm) as (msg & cs' & v & e & H & Hr & Hcs' & Hcat' & _).
  exists msg, cs', v, e. repeat (split; [assumption|]). destruct (calls_go _ _ _ _ _ _ _ _ Hc Hq H) as [_ G].
  destruct (read_record cs en (out ++ [mark (zlen msg) ++ msg]) m rest Hcs Hcat Hm) as (cs1 & cs2 & Hc2 & Hcat2 & R1 & Hv & R2).
  pose proof (zlen_nonneg m). replace (zlen m) with (be_val (be4 (2 ^ 31 + zlen m)) - 2 ^ 31) in R2 at 1 by lia.
  eapply (call_goes_reply stream_conn _ _ _ _ _ _ _ _ _ m); [exact He| |exact R1|lia|exact R2|exact G].
  intros msg' Hr'. rewrite (req_unique (incr_xid c) _ _ _ (incr_ok _ Hc) Hq Hr' Hr). reflexivity.
Qed.
