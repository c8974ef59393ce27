(** Proofs about the RPC client. *)
From Verif Require Import Bytes XdrLib Types Interp Spec Prim Meta Enc Dec Total Canon Runs Codec Codec2 Inv
  RpcTypes RpcSpec RpcWire RpcDec Io Client CallSpec.
Open Scope string_scope.
Open Scope Z_scope.
Open Scope list_scope.

(** ** Record marks *)
Lemma land31_0 n : Z.land (2 ^ 31) (n mod 2 ^ 31) = 0.
Proof.
  apply Z.bits_inj'. intros j Hj. rewrite Z.land_spec, Z.bits_0, Z.pow2_bits_eqb by lia.
  destruct (Z.eqb_spec 31 j) as [<-|]; [|reflexivity].
  rewrite Z.mod_pow2_bits_high by lia. reflexivity.
Qed.

Lemma rec_mark_val n : rec_mark n = 2 ^ 31 + n mod 2 ^ 31 .
Proof.
  rewrite Z.add_nocarry_lxor by apply land31_0. rewrite Z.lxor_lor by apply land31_0.
  unfold rec_mark, to_u32. apply Z.bits_inj'. intros i Hi. rewrite !Z.lor_spec.
  rewrite Z.pow2_bits_eqb by lia. destruct (Z.eqb_spec 31 i) as [<-|Hn]; [reflexivity|].
  cbn [orb]. destruct (Z_lt_le_dec i 31).
  - rewrite !Z.mod_pow2_bits_low by lia. reflexivity.
  - rewrite !Z.mod_pow2_bits_high by lia. reflexivity.
Qed.

Lemma mark_eq n : put_u32 (rec_mark n) = mark n.
Proof. rewrite put_u32_be4, rec_mark_val. reflexivity. Qed.

Lemma last_frag h : u32 h -> (Z.land h (2 ^ 31) =? 0) = (h <? 2 ^ 31).
Proof.
  intros H. unfold u32 in H. assert (E : Z.land h (2 ^ 31) = if Z.testbit h 31 then 2 ^ 31 else 0).
  { apply Z.bits_inj'. intros i Hi. rewrite Z.land_spec, Z.pow2_bits_eqb by lia.
    destruct (Z.eqb_spec 31 i) as [<-|Hn].
    - destruct (Z.testbit h 31); [|rewrite Z.bits_0; reflexivity].
      rewrite Z.pow2_bits_eqb by lia. reflexivity.
    - rewrite andb_false_r. destruct (Z.testbit h 31); [|rewrite Z.bits_0; reflexivity].
      rewrite Z.pow2_bits_eqb by lia. destruct (Z.eqb_spec 31 i); [lia|reflexivity]. }
  rewrite E. destruct (Z.testbit h 31) eqn:Eb.
  - destruct (Z.ltb_spec h (2 ^ 31)) as [Hl|]; [|reflexivity]. exfalso.
    rewrite Z.testbit_eqb in Eb by lia. rewrite Z.div_small in Eb by lia. discriminate.
  - destruct (Z.ltb_spec h (2 ^ 31)) as [|Hl]; [reflexivity|]. exfalso.
    rewrite Z.testbit_eqb in Eb by lia.
    replace (h / 2 ^ 31) with 1 in Eb; [discriminate|].
    apply (Z.div_unique h (2 ^ 31) 1 (h - 2 ^ 31)); lia.
Qed.

Lemma low31 h : u32 h -> 2 ^ 31 <= h -> Z.land h 2147483647 = h - 2 ^ 31.
Proof.
  intros H Hl. unfold u32 in H. change 2147483647 with (Z.ones 31). rewrite Z.land_ones by lia.
  symmetry. apply (Z.mod_unique h (2 ^ 31) 1); lia.
Qed.

Lemma mark_record w : zlen w < 2 ^ 31 -> mark (zlen w) ++ w = record w.
Proof.
  intros H. unfold mark, record. rewrite Z.mod_small; [reflexivity|]. pose proof (zlen_nonneg w). lia.
Qed.

(** ** Fuel *)
Lemma call_request_mono n m c proc cred verf args r : (n <= m)%nat ->
  call_request n c proc cred verf args = Ret r -> call_request m c proc cred verf args = Ret r.
Proof.
  intros Hm H. unfold call_request in *.
  apply obind_ret in H. destruct H as ([wr x] & H1 & H).
  rewrite (xdr_mono n m _ _ _ _ _ Hm H1). cbn [obind].
  destruct (Error wr); [exact H|].
  apply obind_ret in H. destruct H as ([wr' x'] & H2 & H).
  rewrite (xdr_mono n m _ _ _ _ _ Hm H2). cbn [obind]. exact H.
Qed.

Lemma call_reply_mono n m xid buf resp r : (n <= m)%nat ->
  call_reply n xid buf resp = Ret r -> call_reply m xid buf resp = Ret r.
Proof.
  intros Hm H. unfold call_reply in *.
  apply obind_ret in H. destruct H as ([rd x] & H1 & H).
  rewrite (xdr_mono n m _ _ _ _ _ Hm H1). cbn [obind].
  destruct (Error rd); [exact H|].
  repeat match goal with H : (if ?b then _ else _) = _ |- _ => destruct b; [exact H|] end.
  apply obind_ret in H. destruct H as ([rd' x'] & H2 & H).
  rewrite (xdr_mono n m _ _ _ _ _ Hm H2). cbn [obind]. exact H.
Qed.

Lemma Call_mono {S} n m (C : conn S) c s proc cred verf args resp r : (n <= m)%nat ->
  Call n C c s proc cred verf args resp = Ret r -> Call m C c s proc cred verf args resp = Ret r.
Proof.
  intros Hm H. unfold Call in *.
  apply obind_ret in H. destruct H as (q & H1 & H).
  rewrite (call_request_mono n m _ _ _ _ _ _ Hm H1). cbn [obind].
  destruct q as [e|w]; [exact H|]. destruct (c_write C s _) as [s1 [e1|]]; [exact H|].
  apply obind_ret in H. destruct H as ([[s2 hdr] e2] & H2 & H).
  rewrite (read_full_mono n m _ _ _ _ _ Hm H2). cbn [obind].
  destruct e2; [exact H|]. destruct (Z.land _ _ =? 0); [exact H|].
  apply obind_ret in H. destruct H as ([[s3 buf] e3] & H3 & H).
  rewrite (read_full_mono n m _ _ _ _ _ Hm H3). cbn [obind].
  destruct e3; [exact H|].
  apply obind_ret in H. destruct H as ([v e] & H4 & H).
  rewrite (call_reply_mono n m _ _ _ _ Hm H4). cbn [obind]. exact H.
Qed.

Lemma Calls_det {S} (C : conn S) c s q c1 s1 v1 e1 c2 s2 v2 e2 :
  Calls C c s q c1 s1 v1 e1 -> Calls C c s q c2 s2 v2 e2 -> c1 = c2 /\ s1 = s2 /\ v1 = v2 /\ e1 = e2.
Proof.
  intros [n H] [m K]. apply (Call_mono n (n + m)) in H; [|lia]. apply (Call_mono m (n + m)) in K; [|lia].
  rewrite H in K. injection K as -> -> -> ->. auto.
Qed.

(** ** Requests *)
Lemma req_msg_val c proc cred verf :
  req_msg c proc cred verf = msg_val (cl_xid c) 0 (cbody_val 2 (cl_prog c) (cl_vers c) proc cred verf) zero_rbody.
Proof. reflexivity. Qed.

Lemma auth_len p f o w : u32 f -> (auth p f (bytes_of o) w -> zlen (bytes_of o) <= 400).
Proof. intros _ [pad _ H _]. exact H. Qed.

Lemma pad_ex n : exists pad, is_pad RFC n pad.
Proof.
  exists (repeat x00 (Z.to_nat ((- Z.of_nat n) mod 4))).
  pose proof (Z.mod_pos_bound (- Z.of_nat n) 4 ltac:(lia)) as Hb.
  split; [rewrite repeat_length; lia|]. split.
  - rewrite repeat_length, Nat2Z.inj_add, Z2Nat.id by lia.
    rewrite Zplus_mod_idemp_r. replace (Z.of_nat n + - Z.of_nat n) with 0 by lia. reflexivity.
  - intros _. apply Forall_forall. intros b Hb'. apply repeat_spec in Hb'. exact Hb'.
Qed.

Lemma auth_RFC_ENC f b w : auth RFC f b w <-> auth ENC f b w.
Proof. split; intros [pad H1 H2 H3]; constructor; assumption. Qed.

Lemma u32_2 : u32 2. Proof. unfold u32. lia. Qed.

Lemma call_request_spec c q : client_ok c -> req_ok q -> exists N,
  (encodable q /\ exists msg, request (cl_xid c) (cl_prog c) (cl_vers c) q msg /\
     forall n, (N <= n)%nat -> call_request n c (rq_proc q) (rq_cred q) (rq_verf q) (rq_args q) = Ret (inr msg)) \/
  (~ encodable q /\ exists e,
     forall n, (N <= n)%nat -> call_request n c (rq_proc q) (rq_cred q) (rq_verf q) (rq_args q) = Ret (inl e)).
Proof.
  intros (Hx & Hp & Hv) (Hproc & Hc & Hf & ((D & HwE & Hwt & Hz) & Hta) & _).
  destruct q as [proc cred verf args resp]. cbn [rq_proc rq_cred rq_verf rq_args rq_resp] in *.
  destruct (ty_auth _ Hc) as (f1 & o1 & -> & Hf1). destruct (ty_auth _ Hf) as (f2 & o2 & -> & Hf2).
  set (m := msg_val (cl_xid c) 0 (cbody_val 2 (cl_prog c) (cl_vers c) proc (auth_val f1 o1) (auth_val f2 o2)) zero_rbody).
  assert (Hm : has_ty rpc_env msg_t m).
  { apply msg_ty; [exact Hx|apply u32_0| |apply zero_rbody_ty]. apply cbody_ty; auto using u32_2. }
  destruct (enc_outcome rpc_D rpc_env msg_t rpc_wf msg_wf [] m Hm) as (w & [[[n1 K1] Hw]|(e & [n1 K1] & Hnb)]).
  - cbn [app] in K1. apply wire_msg_call in Hw. destruct Hw as (_ & w0 & Hw & ->).
    apply wire_cbody in Hw. destruct Hw as (_ & _ & _ & _ & w1 & w2 & H1 & H2 & ->).
    apply wire_auth in H1, H2.
    set (hdr := be4 _ ++ _) in *.
    destruct (enc_outcome D _ _ HwE Hwt hdr (xv_val args) Hta) as (wa & [[[n2 K2] Hwa]|(e & [n2 K2] & Hnb)]).
    + exists (n1 + n2)%nat. left. split.
      { split; [exists f1, o1; split; [reflexivity|apply (auth_len _ _ _ _ Hf1 H1)]|].
        split; [exists f2, o2; split; [reflexivity|apply (auth_len _ _ _ _ Hf2 H2)]|].
        apply (proj1 (proj1 (proj2 (c03 D _ _ HwE Hwt (xv_val args) Hta)) wa None
          (proj2 (Encode_ok_wire D _ _ HwE Hwt (xv_val args) wa Hta) Hwa)) eq_refl). }
      exists (hdr ++ wa). split.
      { exists f1, o1, f2, o2, w1, w2, wa. rewrite !auth_RFC_ENC. repeat split; auto. }
      intros n Hn. unfold call_request. rewrite req_msg_val. fold m. change (MakeWriter []) with (WR []).
      rewrite (xdr_mono n1 n _ _ _ _ _ ltac:(lia) K1). cbn [obind Error x_err].
      rewrite (xdr_mono n2 n _ _ _ _ _ ltac:(lia) K2). cbn [obind]. reflexivity.
    + exists (n1 + n2)%nat. right. split; [intros (_ & _ & Hb); exact (Hnb Hb)|]. exists e.
      intros n Hn. unfold call_request. rewrite req_msg_val. fold m. change (MakeWriter []) with (WR []).
      rewrite (xdr_mono n1 n _ _ _ _ _ ltac:(lia) K1). cbn [obind Error x_err].
      rewrite (xdr_mono n2 n _ _ _ _ _ ltac:(lia) K2). cbn [obind]. reflexivity.
  - exists n1. right. split.
    + intros ((f & o & E1 & L1) & (f' & o' & E2 & L2) & _). apply Hnb.
      injection E1 as <- <-. injection E2 as <- <-.
      assert (Hw : exists w, Wire ENC rpc_env msg_t m w).
      { destruct (pad_ex (List.length (bytes_of o1))) as [p1 Hp1].
        destruct (pad_ex (List.length (bytes_of o2))) as [p2 Hp2].
        eexists. apply wire_msg_call. split; [exact Hx|]. eexists. split; [|reflexivity].
        apply wire_cbody. repeat (split; [auto using u32_2|]). eexists. eexists.
        rewrite !wire_auth, <- !auth_RFC_ENC. split; [constructor; eassumption|].
        split; [constructor; eassumption|]. reflexivity. }
      destruct Hw as [w' Hw].
      apply (proj1 (proj1 (proj2 (c03 rpc_D _ _ rpc_wf msg_wf m Hm)) w' None
          (proj2 (Encode_ok_wire rpc_D _ _ rpc_wf msg_wf m w' Hm) Hw)) eq_refl).
    + exists e. intros n Hn. unfold call_request. rewrite req_msg_val. fold m. change (MakeWriter []) with (WR []).
      rewrite (xdr_mono n1 n _ _ _ _ _ ltac:(lia) K1). reflexivity.
Qed.

(** ** Replies *)
Lemma call_reply_spec xid m resp : u32 xid -> xv_ok resp -> exists N v e, reply_outcome xid m resp v e /\
  forall n, (N <= n)%nat -> call_reply n xid m resp = Ret (v, e).
Proof.
  intros Hx ((D & HwE & Hwt & Hz) & Htr).
  destruct (msg_outcome m) as [(w & rest & x & Em & [n1 K1] & Hw & Hty)|(e & r & x & [n1 K1])].
  - assert (Hr : runs rpc_env msg_t (RD m) zero_msg (RD rest) x) by (exists n1; exact K1).
    assert (Hfail : forall e, (forall n, (n1 <= n)%nat -> call_reply n xid m resp = Ret (xv_val resp, Some e)) ->
      (forall res, ~ is_success m xid res) ->
      exists N v e, reply_outcome xid m resp v e /\
        forall n, (N <= n)%nat -> call_reply n xid m resp = Ret (v, e)).
    { intros e He Hns. exists n1, (xv_val resp), (Some e). split; [|exact He].
      right. split; [exact Hns|]. split; [reflexivity|congruence]. }
    assert (Hsucc : forall res, is_success m xid res -> res = rest /\ get_int ["Xid"] x = xid /\
      get_int ["Body"; "Mtype"] x = 1 /\ get_int ["Body"; "Rbody"; "Stat"] x = 0 /\
      get_int ["Body"; "Rbody"; "Areply"; "Reply_data"; "Stat"] x = 0).
    { intros res Hs. destruct (decode_success _ _ _ Hs) as (f & b & Hd).
      destruct (runs_det _ _ _ _ _ _ _ _ Hr Hd) as [[= <-] ->]. repeat split. }
    destruct (Z.eqb_spec (get_int ["Xid"] x) xid) as [E1|E1].
    2:{ eapply Hfail.
        - intros n Hn. unfold call_reply. change (MakeReader m) with (RD m).
          rewrite (xdr_mono n1 n _ _ _ _ _ Hn K1). cbn [obind Error x_err].
          destruct (Z.eqb_spec (get_int ["Xid"] x) xid); [congruence|]. cbn [negb]. reflexivity.
        - intros res Hs. apply Hsucc in Hs. tauto. }
    destruct (Z.eqb_spec (get_int ["Body"; "Mtype"] x) 1) as [E2|E2].
    2:{ eapply Hfail.
        - intros n Hn. unfold call_reply. change (MakeReader m) with (RD m).
          rewrite (xdr_mono n1 n _ _ _ _ _ Hn K1). cbn [obind Error x_err].
          rewrite E1, Z.eqb_refl. cbn [negb]. unfold REPLY.
          destruct (Z.eqb_spec (get_int ["Body"; "Mtype"] x) 1); [congruence|]. cbn [negb]. reflexivity.
        - intros res Hs. apply Hsucc in Hs. tauto. }
    destruct (Z.eqb_spec (get_int ["Body"; "Rbody"; "Stat"] x) 0) as [E3|E3].
    2:{ eapply Hfail.
        - intros n Hn. unfold call_reply. change (MakeReader m) with (RD m).
          rewrite (xdr_mono n1 n _ _ _ _ _ Hn K1). cbn [obind Error x_err].
          rewrite E1, Z.eqb_refl, E2. unfold REPLY, MSG_ACCEPTED. cbn [negb Z.eqb Pos.eqb].
          destruct (Z.eqb_spec (get_int ["Body"; "Rbody"; "Stat"] x) 0); [congruence|]. cbn [negb]. reflexivity.
        - intros res Hs. apply Hsucc in Hs. tauto. }
    destruct (Z.eqb_spec (get_int ["Body"; "Rbody"; "Areply"; "Reply_data"; "Stat"] x) 0) as [E4|E4].
    2:{ eapply Hfail.
        - intros n Hn. unfold call_reply. change (MakeReader m) with (RD m).
          rewrite (xdr_mono n1 n _ _ _ _ _ Hn K1). cbn [obind Error x_err].
          rewrite E1, Z.eqb_refl, E2, E3. unfold REPLY, MSG_ACCEPTED, SUCCESS. cbn [negb Z.eqb Pos.eqb].
          destruct (Z.eqb_spec (get_int ["Body"; "Rbody"; "Areply"; "Reply_data"; "Stat"] x) 0); [congruence|].
          cbn [negb]. reflexivity.
        - intros res Hs. apply Hsucc in Hs. tauto. }
    pose proof (decode_reply_inv _ _ _ Hr E2 E3 E4) as Hs. rewrite E1 in Hs.
    destruct (runs_dec D _ _ HwE Hwt Hz rest (xv_val resp) Htr) as (s' & v & n2 & K2).
    exists (n1 + n2)%nat, v, (option_map CXdr (x_err s')). split.
    + left. exists rest, (x_err s'). split; [exact Hs|]. split.
      * apply Decode_runs. exists s'. split; [exists n2; exact K2|reflexivity].
      * destruct (x_err s'); cbn; split; congruence.
    + intros n Hn. unfold call_reply. change (MakeReader m) with (RD m).
      rewrite (xdr_mono n1 n _ _ _ _ _ ltac:(lia) K1). cbn [obind Error x_err].
      rewrite E1, Z.eqb_refl, E2, E3, E4. unfold REPLY, MSG_ACCEPTED, SUCCESS. cbn [negb Z.eqb Pos.eqb].
      rewrite (xdr_mono n2 n _ _ _ _ _ ltac:(lia) K2). cbn [obind Error]. unfold Error.
      destruct (x_err s'); reflexivity.
  - exists n1, (xv_val resp), (Some (CXdr e)). split.
    + right. split; [|split; [reflexivity|congruence]]. intros res Hs.
      destruct (decode_success _ _ _ Hs) as (f & b & Hd).
      destruct (runs_det _ _ _ _ _ _ _ _ (ex_intro _ n1 K1) Hd) as [E _]. discriminate.
    + intros n Hn. unfold call_reply. change (MakeReader m) with (RD m).
      rewrite (xdr_mono n1 n _ _ _ _ _ Hn K1). reflexivity.
Qed.

Lemma incr_ok c : client_ok c -> client_ok (incr_xid c).
Proof.
  intros (H & Hp & Hv). split; [|split; assumption]. cbn. unfold u32.
  apply Z.mod_pos_bound. lia.
Qed.

(** ** One call *)
(** How far a call with request [msg] got. *)
Inductive call_step {S} (C : conn S) (s : S) (xid : Z) (msg : list byte) (resp : xdrable)
  : S -> val -> option cerr -> Prop :=
| St_write s1 e : c_write C s (mark (zlen msg) ++ msg) = (s1, Some e) ->
    call_step C s xid msg resp s1 (xv_val resp) (Some (CIo e))
| St_hdr s1 s2 d e : c_write C s (mark (zlen msg) ++ msg) = (s1, None) ->
    ReadFull C s1 4 s2 d (Some e) ->
    call_step C s xid msg resp s2 (xv_val resp) (Some (CIo e))
| St_frag s1 s2 hdr : c_write C s (mark (zlen msg) ++ msg) = (s1, None) ->
    ReadFull C s1 4 s2 hdr None -> be_val hdr < 2 ^ 31 ->
    call_step C s xid msg resp s2 (xv_val resp) (Some CFragments)
| St_body s1 s2 s3 hdr d e : c_write C s (mark (zlen msg) ++ msg) = (s1, None) ->
    ReadFull C s1 4 s2 hdr None -> 2 ^ 31 <= be_val hdr ->
    ReadFull C s2 (be_val hdr - 2 ^ 31) s3 d (Some e) ->
    call_step C s xid msg resp s3 (xv_val resp) (Some (CIo e))
| St_reply s1 s2 s3 hdr m v e : c_write C s (mark (zlen msg) ++ msg) = (s1, None) ->
    ReadFull C s1 4 s2 hdr None -> 2 ^ 31 <= be_val hdr ->
    ReadFull C s2 (be_val hdr - 2 ^ 31) s3 m None -> reply_outcome xid m resp v e ->
    call_step C s xid msg resp s3 v e.

Lemma req_unique c q m1 m2 : client_ok c -> req_ok q ->
  request (cl_xid c) (cl_prog c) (cl_vers c) q m1 -> request (cl_xid c) (cl_prog c) (cl_vers c) q m2 -> m1 = m2.
Proof.
  intros _ (_ & _ & _ & ((D & HwE & Hwt & Hz) & Hta) & _)
    (f1 & o1 & f2 & o2 & w1 & w2 & wa & E1 & E2 & H1 & H2 & Ha & ->)
    (f1' & o1' & f2' & o2' & w1' & w2' & wa' & E1' & E2' & H1' & H2' & Ha' & ->).
  rewrite E1 in E1'. rewrite E2 in E2'. injection E1' as <- <-. injection E2' as <- <-.
  assert (HA : forall f b u v, auth RFC f b u -> auth RFC f b v -> u = v).
  { intros f b u v [p Hf Hl (P1 & P2 & P3)] [p' _ _ (Q1 & Q2 & Q3)]. do 3 f_equal.
    specialize (P3 eq_refl). specialize (Q3 eq_refl).
    assert (Hlen : List.length p = List.length p').
    { rewrite Nat2Z.inj_add in P2, Q2. 
      pose proof (Z.div_mod (Z.of_nat (List.length b) + Z.of_nat (List.length p)) 4 ltac:(lia)).
      pose proof (Z.div_mod (Z.of_nat (List.length b) + Z.of_nat (List.length p')) 4 ltac:(lia)).
      lia. }
    clear - P3 Q3 Hlen. revert p' Q3 Hlen. induction P3 as [|x l Hx _ IH]; intros [|y l'] Q Hl; try discriminate; auto.
    inversion Q; subst. f_equal. apply IH; auto. }
  rewrite (HA _ _ _ _ H1 H1'), (HA _ _ _ _ H2 H2'). f_equal.
  apply (Encode_ok_wire D _ _ HwE Hwt _ _ Hta) in Ha, Ha'. apply (Encode_det _ _ _ _ _ _ _ Ha Ha').
Qed.

Lemma Calls_encodable {S} (C : conn S) c s q c' s' v e : client_ok c -> req_ok q -> encodable q ->
  Calls C c s q c' s' v e -> exists msg, request (next_xid c) (cl_prog c) (cl_vers c) q msg /\
    c' = incr_xid c /\ call_step C s (next_xid c) msg (rq_resp q) s' v e.
Proof.
  intros Hc Hq He [n H].
  destruct (call_request_spec _ _ (incr_ok _ Hc) Hq) as (N & [[_ (msg & Hm & HN)]|[Hne _]]); [|contradiction].
  exists msg. split; [exact Hm|].
  apply (Call_mono n (n + N)) in H; [|lia]. set (k := (n + N)%nat) in *.
  unfold Call in H. rewrite (HN k ltac:(unfold k; lia)) in H. cbn [obind] in H. rewrite mark_eq in H.
  destruct (c_write C s (mark (zlen msg) ++ msg)) as [s1 [e1|]] eqn:Ew.
  { injection H as <- <- <- <-. split; [reflexivity|]. constructor. exact Ew. }
  apply obind_ret in H. destruct H as ([[s2 hdr] e2] & H2 & H).
  assert (R2 : ReadFull C s1 4 s2 hdr e2) by (exists k; exact H2).
  destruct e2 as [e2|].
  { injection H as <- <- <- <-. split; [reflexivity|]. eapply St_hdr; eassumption. }
  destruct (read_full_len _ _ _ _ _ _ _ H2) as (hd & Eh & Hl). cbn [app] in Eh. subst hd.
  rewrite get_u32_val in H by exact Hl.
  destruct (be4_be_val _ Hl) as [_ Hu]. rewrite last_frag in H by exact Hu.
  destruct (Z.ltb_spec (be_val hdr) (2 ^ 31)) as [Hlt|Hge].
  { injection H as <- <- <- <-. split; [reflexivity|]. eapply St_frag; eassumption. }
  rewrite low31 in H by assumption.
  apply obind_ret in H. destruct H as ([[s3 buf] e3] & H3 & H).
  assert (R3 : ReadFull C s2 (be_val hdr - 2 ^ 31) s3 buf e3) by (exists k; exact H3).
  destruct e3 as [e3|].
  { injection H as <- <- <- <-. split; [reflexivity|]. eapply St_body; eassumption. }
  apply obind_ret in H. destruct H as ([v4 e4] & H4 & H). injection H as <- <- <- <-.
  split; [reflexivity|]. eapply St_reply; try eassumption.
  destruct (call_reply_spec (next_xid c) buf (rq_resp q)) as (N' & v' & e' & Ho & HN').
  { exact (proj1 (incr_ok _ Hc)). }
  { exact (proj2 (proj2 (proj2 (proj2 Hq)))). }
  apply (call_reply_mono k (k + N')) in H4; [|lia]. change (cl_xid (incr_xid c)) with (next_xid c) in H4.
  rewrite (HN' (k + N')%nat ltac:(lia)) in H4. injection H4 as <- <-. exact Ho.
Qed.

Lemma Calls_unencodable {S} (C : conn S) c s q : client_ok c -> req_ok q -> ~ encodable q ->
  exists e, Calls C c s q (incr_xid c) s (xv_val (rq_resp q)) (Some e).
Proof.
  intros Hc Hq He.
  destruct (call_request_spec _ _ (incr_ok _ Hc) Hq) as (N & [[? _]|[_ (e & HN)]]); [contradiction|].
  exists (CXdr e), N. unfold Call. rewrite (HN N (le_n _)). reflexivity.
Qed.

Lemma encodable_dec q : req_ok q -> encodable q \/ ~ encodable q.
Proof.
  intros Hq. destruct (call_request_spec (mkClient 0 0 0) q) as (N & [[? _]|[? _]]); auto.
  repeat split; apply u32_0.
Qed.

Lemma Calls_terminates {S} (C : conn S) c s q : client_ok c -> req_ok q ->
  (forall s k, exists n r, read_full n C s k [] = Ret r) ->
  exists c' s' v e, Calls C c s q c' s' v e.
Proof.
  intros Hc Hq HR.
  destruct (call_request_spec _ _ (incr_ok _ Hc) Hq) as (N & [[He (msg & Hm & HN)]|[He _]]).
  2:{ destruct (Calls_unencodable C c s q Hc Hq He) as [e H]. eauto. }
  destruct (c_write C s (put_u32 (rec_mark (zlen msg)) ++ msg)) as [s1 [e1|]] eqn:Ew.
  { do 4 eexists. exists N. unfold Call. rewrite (HN N (le_n _)). cbn [obind]. rewrite Ew. reflexivity. }
  destruct (HR s1 4%nat) as (n2 & [[s2 hdr] e2] & R2).
  destruct e2 as [e2|].
  { do 4 eexists. exists (N + n2)%nat. unfold Call. rewrite HN by lia. cbn [obind]. rewrite Ew.
    rewrite (read_full_mono n2 (N + n2) _ _ _ _ _ ltac:(lia) R2). reflexivity. }
  destruct (Z.land (get_u32 hdr) (2 ^ 31) =? 0) eqn:El.
  { do 4 eexists. exists (N + n2)%nat. unfold Call. rewrite HN by lia. cbn [obind]. rewrite Ew.
    rewrite (read_full_mono n2 (N + n2) _ _ _ _ _ ltac:(lia) R2). cbn [obind]. rewrite El. reflexivity. }
  destruct (HR s2 (Z.to_nat (Z.land (get_u32 hdr) 2147483647))) as (n3 & [[s3 buf] e3] & R3).
  destruct e3 as [e3|].
  { do 4 eexists. exists (N + n2 + n3)%nat. unfold Call. rewrite HN by lia. cbn [obind]. rewrite Ew.
    rewrite (read_full_mono n2 (N + n2 + n3) _ _ _ _ _ ltac:(lia) R2). cbn [obind]. rewrite El.
    rewrite (read_full_mono n3 (N + n2 + n3) _ _ _ _ _ ltac:(lia) R3). reflexivity. }
  destruct (call_reply_spec (next_xid c) buf (rq_resp q)) as (N' & v' & e' & Ho & HN').
  { exact (proj1 (incr_ok _ Hc)). }
  { exact (proj2 (proj2 (proj2 (proj2 Hq)))). }
  do 4 eexists. exists (N + n2 + n3 + N')%nat. unfold Call. rewrite HN by lia. cbn [obind]. rewrite Ew.
  rewrite (read_full_mono n2 (N + n2 + n3 + N') _ _ _ _ _ ltac:(lia) R2). cbn [obind]. rewrite El.
  rewrite (read_full_mono n3 (N + n2 + n3 + N') _ _ _ _ _ ltac:(lia) R3). cbn [obind].
  change (cl_xid (incr_xid c)) with (next_xid c). rewrite HN' by lia. reflexivity.
Qed.

Lemma ReadFull_det {S} (C : conn S) s k s1 d1 e1 s2 d2 e2 :
  ReadFull C s k s1 d1 e1 -> ReadFull C s k s2 d2 e2 -> s1 = s2 /\ d1 = d2 /\ e1 = e2.
Proof.
  intros [n H] [m K]. pose proof (read_full_det _ _ _ _ _ _ _ _ H K) as [= -> -> ->]. auto.
Qed.

Lemma success_inj m xid r1 r2 : is_success m xid r1 -> is_success m xid r2 -> r1 = r2.
Proof.
  intros H K. destruct (decode_success _ _ _ H) as (f & b & Hd).
  destruct (decode_success _ _ _ K) as (f' & b' & Kd).
  destruct (runs_det _ _ _ _ _ _ _ _ Hd Kd) as [[= ->] _]. reflexivity.
Qed.

(** *** C26 *)
Lemma c26_ok {S} (C : conn S) c s log0 q c' s' log v e : client_ok c -> req_ok q -> encodable q ->
  Calls (logged C) c (s, log0) q c' (s', log) v e ->
  exists msg, request (next_xid c) (cl_prog c) (cl_vers c) q msg /\ log = log0 ++ [mark (zlen msg) ++ msg].
Proof.
  intros Hc Hq He H. destruct (Calls_encodable _ _ _ _ _ _ _ _ Hc Hq He H) as (msg & Hm & _ & Hs).
  exists msg. split; [exact Hm|].
  assert (HL : forall s l k s' l' d e, ReadFull (logged C) (s, l) k (s', l') d e -> l' = l).
  { intros s0 l0 k0 s1 l1 d1 e1 [n Hn]. rewrite read_full_logged in Hn.
    destruct (read_full n C s0 (Z.to_nat k0) []) as [[[? ?] ?]| |]; try discriminate. congruence. }
  assert (HW : forall s1 l e1, c_write (logged C) (s, log0) (mark (zlen msg) ++ msg) = ((s1, l), e1) ->
    l = log0 ++ [mark (zlen msg) ++ msg]).
  { intros s1 l e1 Hw. cbn in Hw. destruct (c_write C s (mark (zlen msg) ++ msg)). congruence. }
  inversion Hs as [s1 e1 Hw|s1 s2 d e1 Hw R1|s1 s2 hdr Hw R1 Hb|s1 s2 s3 hdr d e1 Hw R1 Hb R2
                  |s1 s2 s3 hdr m v1 e1 Hw R1 Hb R2 Ho]; subst;
    try destruct s1 as [s1 l1]; try destruct s2 as [s2 l2];
    apply HW in Hw; try apply HL in R1; try apply HL in R2; congruence.
Qed.

Lemma c26_err {S} (C : conn S) c s q c' s' v e : client_ok c -> req_ok q -> ~ encodable q ->
  Calls C c s q c' s' v e -> s' = s /\ e <> None /\ v = xv_val (rq_resp q).
Proof.
  intros Hc Hq He H. destruct (Calls_unencodable C c s q Hc Hq He) as [e' K].
  destruct (Calls_det _ _ _ _ _ _ _ _ _ _ _ _ H K) as (-> & -> & -> & ->).
  repeat split; congruence.
Qed.

(** *** C28 *)
Lemma c28 {S} (C : conn S) c s q c' s' v e : client_ok c -> req_ok q ->
  Calls C c s q c' s' v e ->
  (e = None <-> exists msg s1 s2 hdr m res rest,
     request (next_xid c) (cl_prog c) (cl_vers c) q msg /\
     c_write C s (mark (zlen msg) ++ msg) = (s1, None) /\
     ReadFull C s1 4 s2 hdr None /\ 2 ^ 31 <= be_val hdr /\
     ReadFull C s2 (be_val hdr - 2 ^ 31) s' m None /\
     is_success m (next_xid c) res /\
     DecodeRest (xv_env (rq_resp q)) (xv_ty (rq_resp q)) res (xv_val (rq_resp q)) rest v).
Proof.
  intros Hc Hq H. split.
  - intros ->. destruct (encodable_dec _ Hq) as [He|He].
    2:{ destruct (c26_err _ _ _ _ _ _ _ _ Hc Hq He H) as (_ & K & _). congruence. }
    destruct (Calls_encodable _ _ _ _ _ _ _ _ Hc Hq He H) as (msg & Hm & _ & Hs).
    inversion Hs as [| | | |s1 s2 s3 hdr m v1 e1 Hw R1 Hb R2 Ho]; subst.
    destruct Ho as [(res & e' & Hsu & Hd & He')|(_ & _ & K)]; [|congruence].
    rewrite (proj1 He' eq_refl) in Hd. apply Decode_runs in Hd. destruct Hd as (st & Hr & Herr).
    pose proof Hr as [k Hk]. apply xdr_shape in Hk. destruct Hk as [Hrd _].
    destruct st as [er rdr rest]. cbn in Herr, Hrd. subst er rdr.
    exists msg, s1, s2, hdr, m, res, rest. repeat (split; [assumption|]). exact Hr.
  - intros (msg & s1 & s2 & hdr & m & res & rest & Hm & Hw & R1 & Hb & R2 & Hsu & Hd).
    assert (He : encodable q).
    { destruct (encodable_dec _ Hq) as [He|He]; [exact He|]. exfalso.
      destruct (Hm) as (f1 & o1 & f2 & o2 & w1 & w2 & wa & E1 & E2 & A1 & A2 & Ha & _). apply He.
      destruct Hq as (_ & _ & _ & ((D & HwE & Hwt & Hz) & Hta) & _).
      destruct A1 as [p1 _ L1 _], A2 as [p2 _ L2 _].
      split; [exists f1, o1; auto|]. split; [exists f2, o2; auto|].
      apply (proj1 (proj1 (proj2 (c03 D _ _ HwE Hwt _ Hta)) wa None
          (proj2 (Encode_ok_wire D _ _ HwE Hwt _ wa Hta) Ha)) eq_refl). }
    destruct (Calls_encodable _ _ _ _ _ _ _ _ Hc Hq He H) as (msg' & Hm' & _ & Hs).
    rewrite (req_unique (incr_xid c) _ _ _ (incr_ok _ Hc) Hq Hm' Hm) in Hs.
    inversion Hs as [t1 e1 Hw'|t1 t2 d e1 Hw' R1'|t1 t2 hdr' Hw' R1' Hb'|t1 t2 t3 hdr' d e1 Hw' R1' Hb' R2'
                  |t1 t2 t3 hdr' m' v1 e1 Hw' R1' Hb' R2' Ho]; subst;
      rewrite Hw in Hw'; try discriminate Hw'; injection Hw' as <-;
      destruct (ReadFull_det _ _ _ _ _ _ _ _ _ R1 R1') as (<- & <- & E1); try discriminate E1; try lia;
      destruct (ReadFull_det _ _ _ _ _ _ _ _ _ R2 R2') as (_ & <- & E2); try discriminate E2.
    destruct Ho as [(res' & e' & Hsu' & Hd' & He')|(K & _)]; [|exfalso; eapply K; exact Hsu].
    rewrite (success_inj _ _ _ _ Hsu' Hsu) in Hd'. apply He'. apply Decode_runs in Hd'.
    destruct Hd' as (st & Hr & <-). destruct (runs_det _ _ _ _ _ _ _ _ Hr Hd) as [-> _]. reflexivity.
Qed.

(** *** C29 *)
Lemma c29 {S} (C : conn S) c s q c' s' v e : client_ok c -> req_ok q ->
  Calls C c s q c' s' v e ->
  v = xv_val (rq_resp q) \/
  exists s1 s2 w hdr m res e',
    c_write C s w = (s1, None) /\ ReadFull C s1 4 s2 hdr None /\
    2 ^ 31 <= be_val hdr /\ ReadFull C s2 (be_val hdr - 2 ^ 31) s' m None /\
    is_success m (next_xid c) res /\
    Decode (xv_env (rq_resp q)) (xv_ty (rq_resp q)) res (xv_val (rq_resp q)) e' v.
Proof.
  intros Hc Hq H. destruct (encodable_dec _ Hq) as [He|He].
  2:{ destruct (c26_err _ _ _ _ _ _ _ _ Hc Hq He H) as (_ & _ & K). auto. }
  destruct (Calls_encodable _ _ _ _ _ _ _ _ Hc Hq He H) as (msg & Hm & _ & Hs).
  inversion Hs as [| | | |s1 s2 s3 hdr m v1 e1 Hw R1 Hb R2 Ho]; subst; auto.
  destruct Ho as [(res & e' & Hsu & Hd & He')|(_ & K & _)]; [|auto].
  right. exists s1, s2, (mark (zlen msg) ++ msg), hdr, m, res, e'. repeat (split; [assumption|]). exact Hd.
Qed.

Lemma Calls_client {S} (C : conn S) c s q c' s' v e : client_ok c -> req_ok q ->
  Calls C c s q c' s' v e -> c' = incr_xid c.
Proof.
  intros Hc Hq H. destruct (encodable_dec _ Hq) as [He|He].
  - destruct (Calls_encodable _ _ _ _ _ _ _ _ Hc Hq He H) as (msg & _ & -> & _). reflexivity.
  - destruct (Calls_unencodable C c s q Hc Hq He) as [e' K].
    destruct (Calls_det _ _ _ _ _ _ _ _ _ _ _ _ H K) as (-> & _). reflexivity.
Qed.

(** *** C27 *)
Definition opt_list {A} (o : option A) : list A := match o with Some a => [a] | None => [] end.

Lemma xid_add x k : (((x + 1) mod 2 ^ 32 + k) mod 2 ^ 32) = (x + (1 + k)) mod 2 ^ 32.
Proof. rewrite Zplus_mod_idemp_l. f_equal. lia. Qed.

Lemma c27 {S} (C : conn S) qs : forall c s log c' s' log' rs, client_ok c -> Forall req_ok qs ->
  CallSeq (logged C) c (s, log) qs c' (s', log') rs ->
  cl_xid c' = (cl_xid c + zlen qs) mod 2 ^ 32 /\
  exists recs, List.length recs = List.length qs /\ log' = log ++ flat_map opt_list recs /\
    forall k q r, nth_error qs k = Some q -> nth_error recs k = Some r ->
      match r with
      | Some w => exists msg, w = mark (zlen msg) ++ msg /\
          request ((cl_xid c + (1 + Z.of_nat k)) mod 2 ^ 32) (cl_prog c) (cl_vers c) q msg
      | None => ~ encodable q
      end.
Proof.
  induction qs as [|q qs IH]; intros c s log c' s' log' rs Hc Hqs H; inversion H; subst.
  - split. { unfold zlen. cbn. rewrite Z.add_0_r. symmetry. apply Z.mod_small. apply Hc. }
    exists []. split; [reflexivity|]. split; [cbn; rewrite app_nil_r; reflexivity|].
    intros k q0 r Hk. destruct k; discriminate.
  - inversion Hqs as [|? ? Hq Hqs']; subst. destruct s1 as [s1 log1].
    match goal with H : Calls _ _ _ _ _ _ _ _ |- _ => rename H into Hcall end.
    match goal with H : CallSeq _ _ _ qs _ _ _ |- _ => rename H into Hseq end.
    pose proof (Calls_client _ _ _ _ _ _ _ _ Hc Hq Hcall) as ->.
    destruct (IH _ _ _ _ _ _ _ (incr_ok _ Hc) Hqs' Hseq) as (Hx & recs & Hl & Hlog & Hr).
    cbn [cl_xid cl_prog cl_vers incr_xid] in Hx, Hr. rewrite xid_add in Hx.
    split. { rewrite Hx, zlen_cons. reflexivity. }
    destruct (encodable_dec _ Hq) as [He|He].
    + destruct (c26_ok _ _ _ _ _ _ _ _ _ _ Hc Hq He Hcall) as (msg & Hm & ->).
      exists (Some (mark (zlen msg) ++ msg) :: recs). split; [cbn; lia|].
      split. { rewrite Hlog, <- app_assoc. reflexivity. }
      intros [|k] q0 r Hk Hk'.
      * cbn in Hk, Hk'. injection Hk as <-. injection Hk' as <-. exists msg. auto.
      * specialize (Hr k q0 r Hk Hk'). destruct r as [w|]; [|exact Hr].
        destruct Hr as (m' & Hw & Hm'). exists m'. split; [exact Hw|].
        rewrite xid_add in Hm'. replace (1 + Z.of_nat (Datatypes.S k)) with (1 + (1 + Z.of_nat k)) by lia. exact Hm'.
    + destruct (c26_err _ _ _ _ _ _ _ _ Hc Hq He Hcall) as ([= -> ->] & _ & _).
      exists (None :: recs). split; [cbn; lia|]. split; [exact Hlog|].
      intros [|k] q0 r Hk Hk'.
      * cbn in Hk, Hk'. injection Hk as <-. injection Hk' as <-. exact He.
      * specialize (Hr k q0 r Hk Hk'). destruct r as [w|]; [|exact Hr].
        destruct Hr as (m' & Hw & Hm'). exists m'. split; [exact Hw|].
        rewrite xid_add in Hm'. replace (1 + Z.of_nat (Datatypes.S k)) with (1 + (1 + Z.of_nat k)) by lia. exact Hm'.
Qed.

(** *** C30 *)
Lemma stream_terminates s k acc : exists n r, read_full n stream_conn s k acc = Ret r.
Proof.
  destruct s as [cs en out]. revert k acc. induction cs as [|c cs IH]; intros k acc.
  - exists 1%nat. cbn [read_full]. destruct k; [eauto|].
    cbn [stream_conn c_read stream_read si_in si_end List.length].
    destruct (Nat.ltb_spec (S k) 0); [lia|]. rewrite Nat.sub_0_r. eauto.
  - destruct k as [|k]; [exists 1%nat; cbn; eauto|].
    destruct (Nat.leb_spec (List.length c) (S k)) as [Hl|Hl].
    + destruct (IH (S k - List.length c)%nat (acc ++ c)) as (n & r & H).
      exists (S n), r. cbn [read_full stream_conn c_read stream_read si_in si_end si_out].
      destruct (Nat.leb_spec (List.length c) (S k)); [|lia].
      destruct (Nat.ltb_spec (S k) (List.length c)); [lia|]. exact H.
    + exists 2%nat. cbn [read_full stream_conn c_read stream_read si_in si_end si_out].
      destruct (Nat.leb_spec (List.length c) (S k)); [lia|].
      destruct (Nat.ltb_spec (S k) (List.length (firstn (S k) c))) as [Hx|Hx]; rewrite firstn_length in Hx; [lia|].
      rewrite firstn_length. replace (S k - Nat.min (S k) (List.length c))%nat with 0%nat by lia. eauto.
Qed.

Lemma ReadFull_stream cs en out k d rest : chunks_ok cs -> List.concat cs = d ++ rest -> zlen d = k ->
  exists cs', chunks_ok cs' /\ List.concat cs' = rest /\
    ReadFull stream_conn (mkStream cs en out) k (mkStream cs' en out) d None.
Proof.
  intros Hc Hcat Hk. unfold zlen in Hk.
  destruct (read_full_stream cs en out (Z.to_nat k) [] Hc) as (N & cs' & H1 & H2 & H3).
  { rewrite Hcat, app_length. lia. }
  exists cs'. split; [exact H1|]. rewrite Hcat in H2, H3. subst k. rewrite Nat2Z.id in H2, H3.
  rewrite skipn_app, skipn_all, Nat.sub_diag in H2. split; [exact H2|].
  exists N. rewrite Nat2Z.id, (H3 N (le_n _)). rewrite firstn_app, firstn_all, Nat.sub_diag.
  cbn [firstn app]. rewrite app_nil_r. reflexivity.
Qed.

Lemma read_record cs en out m rest : chunks_ok cs -> List.concat cs = record m ++ rest -> zlen m < 2 ^ 31 ->
  exists cs1 cs2, chunks_ok cs2 /\ List.concat cs2 = rest /\
    ReadFull stream_conn (mkStream cs en out) 4 (mkStream cs1 en out) (be4 (2 ^ 31 + zlen m)) None /\
    be_val (be4 (2 ^ 31 + zlen m)) = 2 ^ 31 + zlen m /\
    ReadFull stream_conn (mkStream cs1 en out) (zlen m) (mkStream cs2 en out) m None.
Proof.
  intros Hc Hcat Hm. unfold record in Hcat. rewrite <- app_assoc in Hcat.
  destruct (ReadFull_stream cs en out 4 _ _ Hc Hcat) as (cs1 & Hc1 & Hcat1 & R1); [reflexivity|].
  destruct (ReadFull_stream cs1 en out (zlen m) _ _ Hc1 Hcat1) as (cs2 & Hc2 & Hcat2 & R2); [reflexivity|].
  exists cs1, cs2. split; [exact Hc2|]. split; [exact Hcat2|]. split; [exact R1|].
  split; [|exact R2]. apply be4_val. unfold u32. pose proof (zlen_nonneg m). lia.
Qed.

Lemma c30_one c q cs en out m rest : client_ok c -> req_ok q -> encodable q ->
  chunks_ok cs -> List.concat cs = record m ++ rest -> zlen m < 2 ^ 31 ->
  exists msg cs' v e,
    Calls stream_conn c (mkStream cs en out) q (incr_xid c)
      (mkStream cs' en (out ++ [mark (zlen msg) ++ msg])) v e /\
    request (next_xid c) (cl_prog c) (cl_vers c) q msg /\
    chunks_ok cs' /\ List.concat cs' = rest /\ reply_outcome (next_xid c) m (rq_resp q) v e.
Proof.
  intros Hc Hq He Hcs Hcat Hm.
  destruct (Calls_terminates stream_conn c (mkStream cs en out) q Hc Hq) as (c' & s' & v & e & H).
  { intros. apply stream_terminates. }
  destruct (Calls_encodable _ _ _ _ _ _ _ _ Hc Hq He H) as (msg & Hmsg & -> & Hs).
  destruct (read_record cs en (out ++ [mark (zlen msg) ++ msg]) m rest Hcs Hcat Hm)
    as (cs1 & cs2 & Hc2 & Hcat2 & R1 & Hv & R2).
  assert (Hw : c_write stream_conn (mkStream cs en out) (mark (zlen msg) ++ msg)
    = (mkStream cs en (out ++ [mark (zlen msg) ++ msg]), None)) by reflexivity.
  pose proof (zlen_nonneg m).
  replace (zlen m) with (be_val (be4 (2 ^ 31 + zlen m)) - 2 ^ 31) in R2 at 1 by lia.
  inversion Hs as [t1 e1 Hw'|t1 t2 d e1 Hw' R1'|t1 t2 hdr' Hw' R1' Hb'|t1 t2 t3 hdr' d e1 Hw' R1' Hb' R2'
                  |t1 t2 t3 hdr' m' v1 e1 Hw' R1' Hb' R2' Ho]; subst;
    rewrite Hw in Hw'; try discriminate Hw'; injection Hw' as <-;
    destruct (ReadFull_det _ _ _ _ _ _ _ _ _ R1 R1') as (<- & <- & E1); try discriminate E1; try lia;
    destruct (ReadFull_det _ _ _ _ _ _ _ _ _ R2 R2') as (<- & <- & E2); try discriminate E2.
  exists msg, cs2, v, e. repeat (split; [assumption|]). split; [reflexivity|exact Ho].
Qed.

Lemma c30 qs : forall c cs en out ms rest, client_ok c -> Forall req_ok qs -> Forall encodable qs ->
  chunks_ok cs -> List.length ms = List.length qs ->
  List.concat cs = List.concat (map record ms) ++ rest -> Forall (fun m => zlen m < 2 ^ 31) ms ->
  exists c' cs' out' rs,
    CallSeq stream_conn c (mkStream cs en out) qs c' (mkStream cs' en out') rs /\
    chunks_ok cs' /\ List.concat cs' = rest /\ List.length rs = List.length qs /\
    forall k q m v e, nth_error qs k = Some q -> nth_error ms k = Some m -> nth_error rs k = Some (v, e) ->
      reply_outcome ((cl_xid c + (1 + Z.of_nat k)) mod 2 ^ 32) m (rq_resp q) v e.
Proof.
  induction qs as [|q qs IH]; intros c cs en out ms rest Hc Hqs Hes Hcs Hl Hcat Hms.
  - destruct ms; [|discriminate]. exists c, cs, out, []. split; [constructor|].
    split; [exact Hcs|]. split; [exact Hcat|]. split; [reflexivity|]. intros [|k]; discriminate.
  - destruct ms as [|m ms]; [discriminate|].
    inversion Hqs; subst. inversion Hes; subst. inversion Hms; subst.
    cbn [map List.concat] in Hcat. rewrite <- app_assoc in Hcat.
    destruct (c30_one c q cs en out m _ Hc H1 H3 Hcs Hcat H5) as (msg & cs1 & v & e & Hcall & _ & Hcs1 & Hcat1 & Ho).
    destruct (IH (incr_xid c) cs1 en (out ++ [mark (zlen msg) ++ msg]) ms rest (incr_ok _ Hc))
      as (c' & cs' & out' & rs & Hseq & Hcs' & Hcat' & Hlr & Hr); auto.
    exists c', cs', out', ((v, e) :: rs). split; [econstructor; eassumption|].
    split; [exact Hcs'|]. split; [exact Hcat'|]. split; [cbn; lia|].
    intros [|k] q0 m0 v0 e0 Hk1 Hk2 Hk3; cbn in Hk1, Hk2, Hk3.
    + injection Hk1 as <-. injection Hk2 as <-. injection Hk3 as <- <-. exact Ho.
    + specialize (Hr k q0 m0 v0 e0 Hk1 Hk2 Hk3). cbn [cl_xid incr_xid] in Hr. rewrite xid_add in Hr.
      replace (1 + Z.of_nat (S k)) with (1 + (1 + Z.of_nat k)) by lia. exact Hr.
Qed.
