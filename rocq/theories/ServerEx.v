(** C31, C45 on the client side, and a concrete server for the examples of P_Server.v. *)
From Verif Require Import Bytes XdrLib Types Interp Spec Prim Meta Enc Dec Total Canon Runs Codec Codec2 Inv Check
  RpcTypes RpcSpec RpcWire RpcDec Io Client CallSpec ClientP ClientQ Server ServSpec ServerP ServerQ ServerX ExRpc.
Open Scope string_scope.
Open Scope Z_scope.
Open Scope list_scope.

(** ** C45, client *)
Lemma success_trailing m xid res extra : is_success m xid res -> is_success (m ++ extra) xid (res ++ extra).
Proof.
  intros (Hx & f & b & verf & Ha & ->). split; [exact Hx|]. exists f, b, verf. rewrite app_assoc. auto.
Qed.

Lemma reply_trailing xid m extra resp v v' e' : xv_ok resp -> reply_outcome xid m resp v None ->
  reply_outcome xid (m ++ extra) resp v' e' -> e' = None /\ v' = v.
Proof.
  intros [(D & HwE & Hwt & Hz) Ht] [(res & e1 & Hs & Hd & He1)|(_ & _ & K)] Ho; [|congruence].
  rewrite (proj1 He1 eq_refl) in Hd. apply Decode_runs in Hd. destruct Hd as (st & Hr & Herr).
  pose proof Hr as [k Hk]. apply xdr_shape in Hk. destruct Hk as [Hrd _].
  destruct st as [er rdr rest]. cbn in Herr, Hrd. subst er rdr.
  destruct (c11_local D _ _ HwE Hwt _ _ _ _ Hr) as (w0 & -> & HL).
  pose proof (success_trailing _ _ _ extra Hs) as Hs'. rewrite <- app_assoc in Hs'.
  destruct Ho as [(res' & e2 & Hs2 & Hd2 & He2)|(K & _)]; [|exfalso; eapply K; exact Hs'].
  rewrite (success_inj _ _ _ _ Hs2 Hs') in Hd2. apply Decode_runs in Hd2. destruct Hd2 as (st & Hr2 & <-).
  destruct (runs_det _ _ _ _ _ _ _ _ Hr2 (HL (rest ++ extra))) as [-> ->]. split; [|reflexivity].
  apply He2. reflexivity.
Qed.

Lemma c45_client c q m extra cs en out rest cs2 en2 out2 rest2 c' s' v :
  client_ok c -> req_ok q ->
  chunks_ok cs -> List.concat cs = record m ++ rest ->
  chunks_ok cs2 -> List.concat cs2 = record (m ++ extra) ++ rest2 -> zlen (m ++ extra) < 2 ^ 31 ->
  Calls stream_conn c (mkStream cs en out) q c' s' v None ->
  exists s2, Calls stream_conn c (mkStream cs2 en2 out2) q c' s2 v None.
Proof.
  intros Hc Hq Hcs E Hcs2 E2 Hl H.
  assert (Hl0 : zlen m < 2 ^ 31) by (rewrite zlen_app in Hl; pose proof (zlen_nonneg extra); lia).
  destruct (encodable_dec _ Hq) as [He|He].
  2:{ destruct (c26_err _ _ _ _ _ _ _ _ Hc Hq He H) as (_ & K & _). congruence. }
  destruct (c30_one c q cs en out m rest Hc Hq He Hcs E Hl0) as (msg & cs' & v1 & e1 & H1 & _ & _ & _ & O1).
  destruct (c30_one c q cs2 en2 out2 _ rest2 Hc Hq He Hcs2 E2 Hl) as (msg2 & cs2' & v2 & e2 & H2 & _ & _ & _ & O2).
  destruct (Calls_det _ _ _ _ _ _ _ _ _ _ _ _ H H1) as (-> & _ & <- & <-).
  destruct Hq as (_ & _ & _ & _ & Hresp).
  destruct (reply_trailing _ _ _ _ _ _ _ Hresp O1 O2) as [-> ->]. eauto.
Qed.

(** ** C31 *)
Lemma mark_facts n : 0 <= n -> List.length (mark n) = 4%nat /\ be_val (mark n) = 2 ^ 31 + n mod 2 ^ 31 /\
  (n < 2 ^ 31 -> be_val (mark n) - 2 ^ 31 = n) /\ (2 ^ 31 <= n -> be_val (mark n) - 2 ^ 31 < n).
Proof.
  intros Hn. pose proof (Z.mod_pos_bound n (2 ^ 31) ltac:(lia)) as Hb.
  assert (E : be_val (mark n) = 2 ^ 31 + n mod 2 ^ 31) by (apply be4_val; unfold u32; lia).
  split; [reflexivity|]. split; [exact E|]. rewrite E. split; intros H; [|lia].
  rewrite Z.mod_small by lia. lia.
Qed.

Lemma c31_client S (C : conn S) c s q c' s' log v e : client_ok c -> req_ok q ->
  Calls (logged C) c (s, []) q c' (s', log) v e ->
  log = [] \/ exists hdr msg, log = [hdr ++ msg] /\ List.length hdr = 4%nat /\
    request ((cl_xid c + 1) mod 2 ^ 32) (cl_prog c) (cl_vers c) q msg /\
    be_val hdr = 2 ^ 31 + zlen msg mod 2 ^ 31 /\
    (zlen msg < 2 ^ 31 -> be_val hdr - 2 ^ 31 = zlen msg) /\
    (2 ^ 31 <= zlen msg -> be_val hdr - 2 ^ 31 < zlen msg).
Proof.
  intros Hc Hq H. destruct (c26 C c s q c' s' log v e Hc Hq H) as [K1 K2].
  destruct (encodable_dec _ Hq) as [He|He]; [|left; apply K2; exact He].
  right. destruct (K1 He) as (msg & Hm & Hl & _).
  destruct (mark_facts (zlen msg) (zlen_nonneg _)) as (M1 & M2 & M3 & M4).
  exists (mark (zlen msg)), msg. auto 10.
Qed.

Lemma c31_server W (srv : server W) l S (C : conn S) s w buf s' log w' e : reach srv l -> regs_ok l ->
  Handles (logged C) srv (s, []) w buf (s', log) w' e ->
  log = [] \/ exists hdr rep, log = [hdr ++ rep] /\ List.length hdr = 4%nat /\
    be_val hdr = 2 ^ 31 + zlen rep mod 2 ^ 31 /\
    (zlen rep < 2 ^ 31 -> be_val hdr - 2 ^ 31 = zlen rep) /\
    (2 ^ 31 <= zlen rep -> be_val hdr - 2 ^ 31 < zlen rep).
Proof.
  intros Hr Hg H. destruct (c37 _ _ _ _ _ _ _ _ _ _ _ Hr Hg H) as [->|(xid & rep & _ & Hl & _)]; [auto|].
  right. destruct (mark_facts (zlen rep) (zlen_nonneg _)) as (M1 & M2 & M3 & M4).
  exists (mark (zlen rep)), rep. auto 10.
Qed.

(** An argument of 2^31 bytes: the record announces fewer than are sent. *)
Definition exb_args (bs : list byte) : xdrable := mkXv [] (CVarOpaque None) (VBytes (Some bs)).
Definition exb_q (bs : list byte) : callreq := mkReq 3 exr_cred exr_verf (exb_args bs) exr_resp.
Lemma exb_len : exists bs : list byte, zlen bs = 2 ^ 31.
Proof. exists (repeat x00 (Z.to_nat (2 ^ 31))). unfold zlen. rewrite repeat_length. apply Z2Nat.id. lia. Qed.
Lemma varopaque_len E o wa : Wire ENC E (CVarOpaque None) (VBytes o) wa -> zlen (bytes_of o) <= zlen wa.
Proof.
  intros Hw. inversion Hw as [| | | | | | |m o' hd bs pad Hb Hin Hbe Hp| | | | | | | | | ]; subst.
  rewrite !zlen_app. pose proof (zlen_nonneg hd). pose proof (zlen_nonneg pad). lia.
Qed.
Lemma exb_big : exists q, req_ok q /\ encodable q /\
  forall xid prog vers msg, request xid prog vers q msg -> 2 ^ 31 <= zlen msg.
Proof.
  destruct exb_len as [bs Hbs]. exists (exb_q bs).
  destruct exr_q_ok as (H1 & H2 & H3 & _ & H5). destruct exr_q_enc as (K1 & K2 & _).
  split; [|split].
  - split; [exact H1|]. split; [exact H2|]. split; [exact H3|]. split; [|exact H5].
    split; [exists 1%nat; apply (goodb_sound 1); reflexivity|constructor].
  - split; [exact K1|]. split; [exact K2|]. constructor. cbn [bytes_of]. rewrite Hbs. unfold within. lia.
  - intros xid prog vers msg (f1 & o1 & f2 & o2 & w1 & w2 & wa & _ & _ & _ & _ & Hw & ->).
    apply varopaque_len in Hw. cbn [bytes_of] in Hw. rewrite zlen_app.
    pose proof (zlen_nonneg (call_hdr xid 2 prog vers (rq_proc (exb_q bs)) w1 w2)). lia.
Qed.

(** ** A portmapper-like server; the world counts invocations. *)
Definition exs_port (x : option val) (w : Z) : outcome (Z * option val) := Ret (w + 1, Some (VInt 2049)).
Definition exs_null (x : option val) (w : Z) : outcome (Z * option val) := Ret (w + 1, None).
(** Result over its bound. *)
Definition exs_big (x : option val) (w : Z) : outcome (Z * option val) :=
  Ret (w + 1, Some (VStruct [("Flavor", VInt 0); ("Body", VBytes (Some (repeat x07 401)))])).
(** Not generated: a result together with an error. *)
Definition exs_both : handler Z := fun n s w => Ret (w + 1, Some exr_resp, Some (EMsg "bad")).

Definition exs_stub1 : handler Z := stub rpc_env (Some (CIdent "Mapping")) (Some (CIdent "Uint32")) exs_port.
Definition exs_stub0 : handler Z := stub rpc_env None None exs_null.
Definition exs_stub2 : handler Z := stub rpc_env None (Some (CIdent "Opaque_auth")) exs_big.
Definition exs_regs : list (registration Z) :=
  [ mkReg 100000 2 3 (Some exs_both); mkReg 100000 2 0 (Some exs_stub0); mkReg 100000 2 3 (Some exs_stub1);
    mkReg 100000 2 8 (Some exs_stub2); mkReg 100000 2 9 (Some exs_both); mkReg 100000 2 10 None ].
Definition exs_srv : server Z := RegisterMany MakeServer exs_regs.
Definition exs_args : list byte :=
  [x00;x01;x86;xa3; x00;x00;x00;x03; x00;x00;x00;x06; x00;x00;x00;x00].

Lemma exs_reach : reach exs_srv exs_regs.
Proof. apply (R_many _ [] exs_regs). constructor. Qed.

Lemma good_rpc x : goodb 12 12 rpc_env (CIdent x) = true -> exists D, good D rpc_env (CIdent x).
Proof. intros H. exists 12%nat. apply (goodb_sound 12). exact H. Qed.

Lemma exs_user1 : user_ok rpc_env (Some (CIdent "Mapping")) (Some (CIdent "Uint32")) exs_port.
Proof.
  split; [|split].
  - intros t [= <-]. apply good_rpc. vm_compute. reflexivity.
  - intros t [= <-]. apply good_rpc. vm_compute. reflexivity.
  - intros x w w' y [= _ <-]. eexists. split; [reflexivity|]. apply (has_tyb_sound 5). vm_compute. reflexivity.
Qed.
Lemma exs_user0 : user_ok rpc_env None None exs_null.
Proof. split; [discriminate|]. split; [discriminate|]. intros x w w' y [= _ <-]. reflexivity. Qed.
Lemma exs_user2 : user_ok rpc_env None (Some (CIdent "Opaque_auth")) exs_big.
Proof.
  split; [discriminate|split].
  - intros t [= <-]. apply good_rpc. vm_compute. reflexivity.
  - intros x w w' y [= _ <-]. eexists. split; [reflexivity|]. apply (has_tyb_sound 500). vm_compute. reflexivity.
Qed.

Lemma exs_both_ok : handler_ok exs_both.
Proof.
  split; [intros n m s w r _ H; exact H|]. intros s w w' o e [n H]. injection H as _ <- _. exact exr_resp_ok.
Qed.
Lemma exs_ok : regs_ok exs_regs.
Proof.
  intros r h [<-|[<-|[<-|[<-|[<-|[<-|[]]]]]]] [= <-];
    solve [exact exs_both_ok | apply u_ok; first [exact exs_user0|exact exs_user1|exact exs_user2]].
Qed.

Lemma exs_last1 : last_for exs_regs 100000 2 3 (Some exs_stub1).
Proof.
  exists (firstn 2 exs_regs), (skipn 3 exs_regs). split; [reflexivity|].
  intros r [<-|[<-|[<-|[]]]] (_ & _ & K); discriminate K.
Qed.
Lemma exs_last9 : last_for exs_regs 100000 2 9 (Some exs_both).
Proof.
  exists (firstn 4 exs_regs), (skipn 5 exs_regs). split; [reflexivity|]. intros r [<-|[]] (_ & _ & K). discriminate K.
Qed.
Lemma exs_last8 : last_for exs_regs 100000 2 8 (Some exs_stub2).
Proof.
  exists (firstn 3 exs_regs), (skipn 4 exs_regs). split; [reflexivity|].
  intros r [<-|[<-|[]]] (_ & _ & K); discriminate K.
Qed.
Lemma exs_last10 : last_for exs_regs 100000 2 10 None.
Proof. exists (firstn 5 exs_regs), []. split; [reflexivity|]. intros r []. Qed.

(** The request of ExRpc.v, with procedure [proc] and rpc version [rv], program [prog], version [vers]. *)
Definition exs_req (rv prog vers proc : Z) (args : list byte) : list byte :=
  call_hdr 1 rv prog vers proc (be4 1 ++ be4 5 ++ [x01;x02;x03;x04;x05] ++ [x00;x00;x00]) null_auth ++ args.
Lemma exs_req_eq : exs_req 2 100000 2 3 exs_args = exr_msg.
Proof. vm_compute. reflexivity. Qed.
Lemma exs_call rv prog vers proc args : u32 rv -> u32 prog -> u32 vers -> u32 proc ->
  is_call DEC (exs_req rv prog vers proc args) 1 rv prog vers proc 1 [x01;x02;x03;x04;x05] 0 [] args.
Proof.
  intros H1 H2 H3 H4. split; [apply u32_1|]. repeat (split; [assumption|]).
  exists (be4 1 ++ be4 5 ++ [x01;x02;x03;x04;x05] ++ [x00;x00;x00]), null_auth. split; [|split].
  - change (be4 5) with (be4 (zlen [x01;x02;x03;x04;x05])). constructor; [apply u32_1|vm_compute; congruence|].
    split; [cbn; lia|]. split; [reflexivity|discriminate].
  - change null_auth with (be4 0 ++ be4 (zlen (@nil byte)) ++ [] ++ []).
    constructor; [apply u32_0|vm_compute; congruence|apply is_pad_nil].
  - reflexivity.
Qed.

Lemma exs_decodes : arg_decodes rpc_env (Some (CIdent "Mapping")) (exs_args ++ [xff]) (Some exr_map).
Proof.
  exists (VStruct [("Prog", VInt 0); ("Vers", VInt 0); ("Prot", VInt 0); ("Port", VInt 0)]), [xff], exr_map.
  split; [exists 12%nat; vm_compute; reflexivity|]. split; [exists 12%nat; vm_compute; reflexivity|reflexivity].
Qed.

(** Every row of the dispatch table, run. *)
Definition exs_run (w : Z) (buf : list byte) (w' : Z) (reply : list (list byte)) : Prop :=
  exists s' e, Handles (logged stream_conn) exs_srv (exr_s, []) w buf (s', reply) w' e.
Lemma exs_rows :
  exs_run 7 exr_msg 8 [record exr_reply] /\
  exs_run 7 (exr_msg ++ [xff]) 8 [record exr_reply] /\
  exs_run 7 (exs_req 3 100000 2 3 exs_args) 7 [record (be4 1 ++ be4 1 ++ be4 1 ++ be4 0 ++ be4 0 ++ be4 0)] /\
  exs_run 7 (exs_req 2 100001 2 3 exs_args) 7 [record (be4 1 ++ be4 1 ++ be4 0 ++ be4 0 ++ be4 0 ++ be4 1)] /\
  exs_run 7 (exs_req 2 100000 3 3 exs_args) 7
    [record (be4 1 ++ be4 1 ++ be4 0 ++ be4 0 ++ be4 0 ++ be4 2 ++ be4 0 ++ be4 0)] /\
  exs_run 7 (exs_req 2 100000 2 4 exs_args) 7 [record (be4 1 ++ be4 1 ++ be4 0 ++ be4 0 ++ be4 0 ++ be4 3)] /\
  exs_run 7 (exs_req 2 100000 2 3 [x00;x01]) 7 [record (be4 1 ++ be4 1 ++ be4 0 ++ be4 0 ++ be4 0 ++ be4 4)] /\
  exs_run 7 (exs_req 2 100000 2 0 []) 8 [record (be4 1 ++ be4 1 ++ be4 0 ++ be4 0 ++ be4 0 ++ be4 0)] /\
  exs_run 7 (exs_req 2 100000 2 8 []) 8 [] /\
  exs_run 7 (exs_req 2 100000 2 9 []) 8 [record (be4 1 ++ be4 1 ++ be4 0 ++ be4 0 ++ be4 0 ++ be4 4 ++ be4 99)] /\
  exs_run 7 exr_reply 7 [] /\ exs_run 7 (firstn 30 exr_msg) 7 [].
Proof.
  repeat match goal with |- _ /\ _ => split end; (eexists; eexists; exists 30%nat; vm_compute; reflexivity).
Qed.

(** *** C38 *)
Lemma c38 W (srv : server W) l w buf xid rv prog vers proc f1 b1 f2 b2 args : reach srv l -> regs_ok l ->
  is_call DEC buf xid rv prog vers proc f1 b1 f2 b2 args ->
  (rv <> 2 -> sends srv w buf w (be4 xid ++ be4 1 ++ be4 1 ++ be4 0 ++ be4 0 ++ be4 0)) /\
  (rv = 2 -> known_prog l prog -> ~ known_vers l prog vers ->
     sends srv w buf w (be4 xid ++ be4 1 ++ be4 0 ++ be4 0 ++ be4 0 ++ be4 2 ++ be4 0 ++ be4 0)).
Proof.
  intros Hr Hg Hc. destruct (c34 srv l w buf xid rv prog vers proc f1 b1 f2 b2 args Hr Hg Hc) as (H1 & _ & H3 & _).
  split; [exact H1|]. intros A B D. exact (H3 A B D).
Qed.

(** Nobody listens on version 3 although versions 2 exist. *)
Lemma c38_ex : known_prog exs_regs 100000 /\ known_vers exs_regs 100000 2 /\ ~ known_vers exs_regs 100000 3.
Proof.
  split; [exists (mkReg 100000 2 0 (Some exs_stub0)); split; [right; left|]; reflexivity|].
  split; [exists (mkReg 100000 2 0 (Some exs_stub0)); split; [right; left; reflexivity|split; reflexivity]|].
  intros (r & [<-|[<-|[<-|[<-|[<-|[<-|[]]]]]]] & _ & K); discriminate K.
Qed.

Lemma exs_call_ok : is_call DEC exr_msg 1 2 100000 2 3 1 [x01;x02;x03;x04;x05] 0 [] exs_args.
Proof. rewrite <- exs_req_eq. apply exs_call; split; vm_compute; congruence. Qed.

Lemma c36_ex : reach exs_srv exs_regs /\ regs_ok exs_regs /\
  is_call DEC exr_msg 1 2 100000 2 3 1 [x01;x02;x03;x04;x05] 0 [] exs_args /\
  last_for exs_regs 100000 2 3 (Some (stub rpc_env (Some (CIdent "Mapping")) (Some (CIdent "Uint32")) exs_port)) /\
  user_ok rpc_env (Some (CIdent "Mapping")) (Some (CIdent "Uint32")) exs_port /\
  arg_decodes rpc_env (Some (CIdent "Mapping")) exs_args (Some exr_map) /\
  (forall x, ~ arg_decodes rpc_env (Some (CIdent "Mapping")) [x00; x01] x).
Proof.
  split; [exact exs_reach|]. split; [exact exs_ok|]. split; [exact exs_call_ok|]. split; [exact exs_last1|].
  split; [exact exs_user1|]. split.
  - exists (VStruct [("Prog", VInt 0); ("Vers", VInt 0); ("Prot", VInt 0); ("Port", VInt 0)]), [], exr_map.
    split; [exists 12%nat; vm_compute; reflexivity|]. split; [exists 12%nat; vm_compute; reflexivity|reflexivity].
  - destruct (arg_dec _ _ _ _ exs_user1 [x00; x01]) as [[x Hx]|[_ H]]; [|exact H]. exfalso.
    destruct Hx as (z & rest & v & [k Hz] & [n Hd] & _).
    assert (Ez : zero (k + 12) rpc_env (CIdent "Mapping") =
      Some (VStruct [("Prog", VInt 0); ("Vers", VInt 0); ("Prot", VInt 0); ("Port", VInt 0)])).
    { apply (zero_mono_eq rpc_env 12); [lia|]. vm_compute. reflexivity. }
    apply (zero_mono_eq rpc_env k (k + 12)) in Hz; [|lia]. rewrite Ez in Hz. injection Hz as <-.
    eapply (xdr_mono n (n + 12)) in Hd; [|lia].
    assert (Hx : exists s v', Error s <> None /\ xdr (n + 12) rpc_env (CIdent "Mapping") (MakeReader [x00; x01])
      (VStruct [("Prog", VInt 0); ("Vers", VInt 0); ("Prot", VInt 0); ("Port", VInt 0)]) = Ret (s, v')).
    { do 2 eexists. split; [|apply (xdr_mono 12); [lia|vm_compute; reflexivity]]. discriminate. }
    destruct Hx as (s & v' & Hne & Hx). rewrite Hd in Hx. injection Hx as <- _. apply Hne. reflexivity.
Qed.

(** Requests that differ only in credential and verifier. *)
Lemma c44_ex : is_call DEC exr_msg 1 2 100000 2 3 1 [x01;x02;x03;x04;x05] 0 [] exs_args /\
  is_call DEC (call_hdr 1 2 100000 2 3 null_auth null_auth ++ exs_args) 1 2 100000 2 3 0 [] 0 [] exs_args.
Proof.
  split; [exact exs_call_ok|]. split; [apply u32_1|]. repeat (split; [split; vm_compute; congruence|]).
  exists null_auth, null_auth.
  assert (A : auth DEC 0 [] null_auth).
  { change null_auth with (be4 0 ++ be4 (zlen (@nil byte)) ++ [] ++ []).
    constructor; [apply u32_0|vm_compute; congruence|apply is_pad_nil]. }
  auto.
Qed.
