(** Client lemmas in the shape used by P_Client.v, and the examples. *)
From Verif Require Import Bytes XdrLib Types Interp Spec Prim Meta Enc Dec Total Canon Runs Codec Codec2 Inv
  RpcTypes RpcSpec RpcWire RpcDec Io Client CallSpec ClientP ExRpc.
Open Scope string_scope.
Open Scope Z_scope.
Open Scope list_scope.

Lemma c26 {S} (C : conn S) c s q c' s' log v e : client_ok c -> req_ok q ->
  Calls (logged C) c (s, []) q c' (s', log) v e ->
  (encodable q -> exists msg,
     request ((cl_xid c + 1) mod 2 ^ 32) (cl_prog c) (cl_vers c) q msg /\
     log = [be4 (2 ^ 31 + zlen msg mod 2 ^ 31) ++ msg] /\
     (zlen msg < 2 ^ 31 -> log = [record msg])) /\
  (~ encodable q -> log = [] /\ s' = s /\ e <> None).
Proof.
  intros Hc Hq H. split; intros He.
  - destruct (c26_ok _ _ _ _ _ _ _ _ _ _ Hc Hq He H) as (msg & Hm & ->). exists msg.
    split; [exact Hm|]. split; [reflexivity|]. intros Hl. cbn [app]. rewrite mark_record by exact Hl. reflexivity.
  - destruct (c26_err _ _ _ _ _ _ _ _ Hc Hq He H) as ([= -> ->] & K & _). auto.
Qed.

Lemma c26_returns {S} (C : conn S) c s q : client_ok c -> req_ok q ->
  (~ encodable q \/ forall s k, exists s' d e, ReadFull C s k s' d e) ->
  exists c' s' v e, Calls C c s q c' s' v e.
Proof.
  intros Hc Hq [He|HR].
  - destruct (Calls_unencodable C c s q Hc Hq He) as [e H]. eauto.
  - apply Calls_terminates; auto. intros s0 k. destruct (HR s0 (Z.of_nat k)) as (s' & d & e & n & H).
    rewrite Nat2Z.id in H. eauto.
Qed.

Lemma c26_stream_returns s k : exists s' d e, ReadFull stream_conn s k s' d e.
Proof.
  destruct (stream_terminates s (Z.to_nat k) []) as (n & [[s' d] e] & H). exists s', d, e, n. exact H.
Qed.

Lemma c26_ex : client_ok exr_c /\ req_ok exr_q /\ encodable exr_q /\
  Calls (logged stream_conn) exr_c (exr_s, []) exr_q (mkClient 1 100000 2)
    (mkStream ([x80;x00;x00;x18] :: skipn 3 exr_in) EOF [record exr_msg], [record exr_msg]) (VInt 2049) None /\
  req_ok exr_bad /\ ~ encodable exr_bad.
Proof.
  split; [exact exr_c_ok|]. split; [exact exr_q_ok|]. split; [exact exr_q_enc|].
  split; [|split; [exact exr_bad_ok|exact exr_bad_enc]].
  exists 30%nat. vm_compute. reflexivity.
Qed.

Lemma fresh_client prog vers : u32 prog -> u32 vers -> client_ok (MakeClient prog vers).
Proof. intros. split; [apply u32_0|]. auto. Qed.

Lemma c27_fresh {S} (C : conn S) prog vers qs s c' s' log rs :
  u32 prog -> u32 vers -> Forall req_ok qs ->
  CallSeq (logged C) (MakeClient prog vers) (s, []) qs c' (s', log) rs ->
  cl_xid c' = zlen qs mod 2 ^ 32 /\
  exists recs, List.length recs = List.length qs /\ log = flat_map opt_list recs /\
    forall k q r, nth_error qs k = Some q -> nth_error recs k = Some r ->
      match r with
      | Some w => exists msg, w = mark (zlen msg) ++ msg /\
          request ((1 + Z.of_nat k) mod 2 ^ 32) prog vers q msg
      | None => ~ encodable q
      end.
Proof.
  intros Hp Hv Hqs H. exact (c27 C qs _ _ _ _ _ _ _ (fresh_client _ _ Hp Hv) Hqs H).
Qed.

Lemma c27_distinct j k : 0 <= j -> j < k -> k - j < 2 ^ 32 -> (1 + j) mod 2 ^ 32 <> (1 + k) mod 2 ^ 32.
Proof.
  intros Hj Hk Hd E.
  pose proof (Z.div_mod (1 + j) (2 ^ 32) ltac:(lia)). pose proof (Z.div_mod (1 + k) (2 ^ 32) ltac:(lia)). lia.
Qed.

Lemma c27_ex : Forall req_ok [exr_q; exr_bad; exr_q] /\
  exists s' log rs, CallSeq (logged stream_conn) (MakeClient 100000 2) (exr_s, []) [exr_q; exr_bad; exr_q]
    (mkClient 3 100000 2) (s', log) rs /\
    log = [record exr_msg; record ([x00; x00; x00; x03] ++ skipn 4 exr_msg)].
Proof.
  split. { repeat constructor; first [apply exr_q_ok|apply exr_bad_ok]. }
  do 3 eexists. split.
  - econstructor; [exists 30%nat; vm_compute; reflexivity|].
    econstructor; [exists 30%nat; vm_compute; reflexivity|].
    econstructor; [exists 30%nat; vm_compute; reflexivity|].
    constructor.
  - vm_compute. reflexivity.
Qed.

Lemma c28_ex : CallSeq stream_conn exr_c exr_s [exr_q; exr_q]
  (mkClient 2 100000 2)
  (mkStream [[xff]] EOF
     [[x80;x00;x00;x40] ++ exr_msg; [x80;x00;x00;x40] ++ [x00;x00;x00;x02] ++ skipn 4 exr_msg])
  [(VInt 2049, None); (VInt 99, Some (CAccept 3))] /\
  is_success exr_reply 1 [x00; x00; x08; x01] /\
  DecodeRest rpc_env (CIdent "Uint32") [x00; x00; x08; x01] (VInt 99) [] (VInt 2049).
Proof.
  split; [exact exr_run|]. split; [exact exr_success|]. exists 30%nat. vm_compute. reflexivity.
Qed.

Lemma c29_ex : exists s', Calls stream_conn (mkClient 1 100000 2)
    (mkStream [[x80; x00; x00; x18]; exr_reply2] EOF []) exr_q (mkClient 2 100000 2) s' (VInt 99) (Some (CAccept 3)).
Proof. eexists. exists 30%nat. vm_compute. reflexivity. Qed.

Lemma c30_ex : Forall req_ok [exr_q; exr_q] /\ Forall encodable [exr_q; exr_q] /\ chunks_ok exr_in /\
  List.concat exr_in = List.concat (map record [exr_reply; exr_reply2]) ++ [xff] /\
  Forall (fun m => zlen m < 2 ^ 31) [exr_reply; exr_reply2].
Proof.
  split; [repeat constructor; apply exr_q_ok|]. split; [repeat constructor; apply exr_q_enc|].
  split; [repeat constructor; discriminate|]. split; [vm_compute; reflexivity|].
  repeat constructor.
Qed.
