(** Client and server joined by a connection: Call (client.go), the read loop of Run and
    handleReq (server.go) working together. *)
From Verif Require Import Bytes XdrLib Types Interp Spec Meta Canon Runs Codec RpcTypes RpcSpec RpcWire RpcDec Io Client CallSpec ClientP
  Server ServSpec ServerP ServerQ ServerX.
Open Scope string_scope.
Open Scope Z_scope.
Open Scope list_scope.

Section Link.
Context {W : Type}.

(** The server's end of a connection, seen from the client: all bytes sent to the server so
    far, the number of requests it has dealt with, the server's world, and the bytes on
    their way back. *)
Record link : Type := mkLink { lk_sent : list byte; lk_done : nat; lk_w : W; lk_str : stream }.

(** The goroutines of server.go:94 for these buffers, one after another (the client of this
    connection waits for the reply before it sends again). *)
Fixpoint serve (n : nat) (srv : server W) (bufs : list (list byte)) (w : W) : outcome (W * list (list byte)) :=
  match bufs with
  | [] => Ret (w, [])
  | b :: bufs =>
      '(st, w1, _) <- handleReqErr n stream_conn srv (mkStream [] EOF []) w b ;;
      '(w2, out) <- serve n srv bufs w1 ;;
      Ret (w2, si_out st ++ out)
  end.

(** The network may cut the byte streams into pieces at will: [ch1] towards the server,
    [ch2] towards the client.  A write hands the bytes to the server, whose read loop
    (server.go:75-95, run over everything sent so far) delivers the requests that are now
    complete; reads return reply bytes. *)
Definition link_conn (n : nat) (ch1 ch2 : list byte -> list (list byte)) (srv : server W) : conn link :=
  mkConn link
    (fun s b =>
       let sent := lk_sent s ++ b in
       match run_loop n stream_conn (mkStream (ch1 sent) EOF []) [] with
       | Ret (_, bufs, _) =>
           match serve n srv (skipn (lk_done s) bufs) (lk_w s) with
           | Ret (w', out) =>
               let st := lk_str s in
               (mkLink sent (List.length bufs) w'
                  (mkStream (si_in st ++ flat_map ch2 out) (si_end st) (si_out st)), None)
           | _ => (s, Some (EIo "server crashed"))
           end
       | _ => (s, Some (EIo "server crashed"))
       end)
    (fun s k =>
       let '(st, d, e) := stream_read (lk_str s) k in (mkLink (lk_sent s) (lk_done s) (lk_w s) st, d, e)).

Definition chunker (ch : list byte -> list (list byte)) : Prop :=
  forall b, List.concat (ch b) = b /\ chunks_ok (ch b).

(** ** Vocabulary of the statement *)
(** Nothing under way: whole requests sent, all handled, all replies read. *)
Definition idle (s : link) : Prop :=
  (exists ms, Forall (fun m => zlen m < 2 ^ 31) ms /\ lk_sent s = List.concat (map record ms) /\
     lk_done s = List.length ms) /\ si_in (lk_str s) = [].

(** [x] is what a procedure with parameter type [targ] receives when [args] is sent: the same
    data, in canonical form. *)
Definition received (E : env) (targ : option cty) (args : xdrable) (x : option val) : Prop :=
  match targ with
  | None => x = None
  | Some t => xv_env args = E /\ xv_ty args = t /\
      exists v, x = Some v /\ same E t (xv_val args) v /\ canon E t v /\ has_ty E t v
  end.

(** The result variable [resp] has the procedure's result type and holds no pointers. *)
Definition resp_fits (E : env) (tres : option cty) (resp : xdrable) : Prop :=
  match tres with
  | None => resp = xv_void
  | Some t => xv_env resp = E /\ xv_ty resp = t /\ no_stale (xv_val resp) = true
  end.

(** The data a procedure returned: type and value, [None] for void. *)
Record answer : Type := mkAns { an_env : env; an_ty : option cty; an_val : option val }.

(** [v], found in the result variable, is that data. *)
Definition delivered (a : answer) (v : val) : Prop :=
  match an_ty a with
  | None => v = VStruct []
  | Some t => exists r, an_val a = Some r /\ same (an_env a) t r v
  end.

(** Call [q] of program [prog], version [vers], made in world [w]: a handler that does what a
    generated stub does is registered for it, the result can be encoded, request and reply are below 2 GiB, and the
    user's procedure, applied to the arguments, returns [y] and takes [w] to [w']. *)
Inductive invokes (l : list (registration W)) (xid prog vers : Z) (q : callreq) (w w' : W) : answer -> Prop :=
| Invokes h E targ tres user x y :
    last_for l prog vers (rq_proc q) (Some h) -> agrees h (stub E targ tres user) -> user_ok E targ tres user ->
    received E targ (rq_args q) x -> user x w = Ret (w', y) ->
    res_bounded (Some (stub_res E tres y)) ->
    (forall m, request xid prog vers q m -> zlen m < 2 ^ 31) ->
    (forall b, res_wire (Some (stub_res E tres y)) b -> 24 + zlen b < 2 ^ 31) ->
    resp_fits E tres (rq_resp q) ->
    invokes l xid prog vers q w w' (mkAns E tres y).

(** One call after another, the first with transaction id [xid]. *)
Inductive invokes_all (l : list (registration W)) (prog vers : Z) : Z -> list callreq -> W -> W -> list answer -> Prop :=
| IA_nil xid w : invokes_all l prog vers xid [] w w []
| IA_cons xid q qs w w1 w2 a rs :
    invokes l xid prog vers q w w1 a ->
    invokes_all l prog vers ((xid + 1) mod 2 ^ 32) qs w1 w2 rs ->
    invokes_all l prog vers xid (q :: qs) w w2 (a :: rs).

(** ** Reading through the link is reading the stream of replies *)
Variables (n0 : nat) (ch1 ch2 : list byte -> list (list byte)) (srv : server W).

Lemma link_read_full n s k acc :
  read_full n (link_conn n0 ch1 ch2 srv) s k acc =
  match read_full n stream_conn (lk_str s) k acc with
  | Ret (st, d, e) => Ret (mkLink (lk_sent s) (lk_done s) (lk_w s) st, d, e)
  | Panic => Panic | NoFuel => NoFuel
  end.
Proof.
  revert s k acc. induction n as [|n IH]; intros s k acc; [reflexivity|].
  cbn [read_full link_conn c_read]. destruct k as [|k]; [destruct s; reflexivity|].
  cbn [stream_conn c_read]. destruct (stream_read (lk_str s) (S k)) as [[st d] e].
  destruct (Nat.ltb (S k) (List.length d)); [reflexivity|].
  destruct e as [e|].
  - destruct (S k - List.length d)%nat; reflexivity.
  - rewrite IH. reflexivity.
Qed.

Lemma link_ReadFull s k st d e : ReadFull stream_conn (lk_str s) k st d e ->
  ReadFull (link_conn n0 ch1 ch2 srv) s k (mkLink (lk_sent s) (lk_done s) (lk_w s) st) d e.
Proof. intros [n H]. exists n. rewrite link_read_full, H. reflexivity. Qed.

Lemma link_terminates s k : exists n r, read_full n (link_conn n0 ch1 ch2 srv) s k [] = Ret r.
Proof.
  destruct (stream_terminates (lk_str s) k []) as (n & [[st d] e] & H). exists n.
  rewrite link_read_full, H. eauto.
Qed.

(** A call whose request makes the link deliver the record of [m]. *)
Lemma link_call c q s s1 m : client_ok c -> req_ok q -> encodable q ->
  (forall msg, request (next_xid c) (cl_prog c) (cl_vers c) q msg ->
     c_write (link_conn n0 ch1 ch2 srv) s (mark (zlen msg) ++ msg) = (s1, None)) ->
  chunks_ok (si_in (lk_str s1)) -> List.concat (si_in (lk_str s1)) = record m -> zlen m < 2 ^ 31 ->
  exists v e, Calls (link_conn n0 ch1 ch2 srv) c s q (incr_xid c)
      (mkLink (lk_sent s1) (lk_done s1) (lk_w s1) (mkStream [] (si_end (lk_str s1)) (si_out (lk_str s1)))) v e /\
    reply_outcome (next_xid c) m (rq_resp q) v e.
Proof.
  intros Hc Hq He Hw Hcs Hcat Hm.
  destruct (Calls_terminates (link_conn n0 ch1 ch2 srv) c s q Hc Hq) as (c' & s' & v & e & H).
  { intros. apply link_terminates. }
  destruct (Calls_encodable _ _ _ _ _ _ _ _ Hc Hq He H) as (msg & Hmsg & -> & Hs).
  specialize (Hw msg Hmsg).
  destruct s1 as [sent dn w [cs en out]]. cbn [lk_str si_in si_end si_out lk_sent lk_done lk_w] in *.
  destruct (read_record cs en out m [] Hcs) as (cs1 & cs2 & Hc2 & Hcat2 & R1 & Hv & R2).
  { rewrite app_nil_r. exact Hcat. } { exact Hm. }
  pose proof (zlen_nonneg m).
  apply (link_ReadFull (mkLink sent dn w (mkStream cs en out))) in R1.
  apply (link_ReadFull (mkLink sent dn w (mkStream cs1 en out))) in R2.
  cbn [lk_sent lk_done lk_w] in R1, R2.
  replace (zlen m) with (be_val (be4 (2 ^ 31 + zlen m)) - 2 ^ 31) in R2 at 1 by lia.
  assert (cs2 = []). { destruct Hc2 as [|a l Ha Hl]; [reflexivity|]. destruct a; [congruence|discriminate]. }
  subst cs2.
  inversion Hs as [t1 e1 Hw'|t1 t2 d e1 Hw' R1'|t1 t2 hdr' Hw' R1' Hb'|t1 t2 t3 hdr' d e1 Hw' R1' Hb' R2'
                  |t1 t2 t3 hdr' m' v1 e1 Hw' R1' Hb' R2' Ho]; subst;
    rewrite Hw in Hw'; try discriminate Hw'; injection Hw' as <-;
    destruct (ReadFull_det _ _ _ _ _ _ _ _ _ R1 R1') as (<- & <- & E1); try discriminate E1; try lia;
    destruct (ReadFull_det _ _ _ _ _ _ _ _ _ R2 R2') as (<- & <- & E2); try discriminate E2.
  exists v, e. split; [exact H|exact Ho].
Qed.
End Link.
Arguments link W : clear implicits.

Lemma auth_DEC p f b w : auth p f b w -> auth DEC f b w.
Proof. intros [pad H1 H2 H3]. constructor; [exact H1|exact H2|]. eapply is_pad_lax; [apply lax_any_DEC|exact H3]. Qed.

Lemma request_call c q msg : client_ok c -> req_ok q -> request (next_xid c) (cl_prog c) (cl_vers c) q msg ->
  exists f1 b1 f2 b2 wargs, is_call DEC msg (next_xid c) 2 (cl_prog c) (cl_vers c) (rq_proc q) f1 b1 f2 b2 wargs /\
    Wire ENC (xv_env (rq_args q)) (xv_ty (rq_args q)) (xv_val (rq_args q)) wargs.
Proof.
  intros Hc Hq (f1 & o1 & f2 & o2 & w1 & w2 & wargs & E1 & E2 & H1 & H2 & Ha & ->).
  destruct (incr_ok c Hc) as (Hx & Hp & Hv). destruct Hq as (Hproc & _).
  exists f1, (bytes_of o1), f2, (bytes_of o2), wargs. split; [|exact Ha].
  split; [exact Hx|]. split; [apply u32_2|]. split; [exact Hp|]. split; [exact Hv|]. split; [exact Hproc|].
  exists w1, w2. split; [eapply auth_DEC; exact H1|]. split; [eapply auth_DEC; exact H2|reflexivity].
Qed.

Section Run.
Context {W : Type}.
Variables (srv : server W) (l : list (registration W)) (ch1 ch2 : list byte -> list (list byte)).
Hypothesis Hr : reach srv l.
Hypothesis Hg : regs_ok l.
Hypothesis Hch1 : chunker ch1.
Hypothesis Hch2 : chunker ch2.

Lemma link_write s msg rep w' : idle s -> zlen msg < 2 ^ 31 ->
  makes srv (lk_w s) msg w' (inr (mark (zlen rep) ++ rep)) ->
  exists N, forall n, (N <= n)%nat ->
    c_write (link_conn n ch1 ch2 srv) s (mark (zlen msg) ++ msg) =
    (mkLink (lk_sent s ++ record msg) (S (lk_done s)) w'
       (mkStream (ch2 (mark (zlen rep) ++ rep)) (si_end (lk_str s)) (si_out (lk_str s))), None).
Proof.
  intros [(ms & Hms & Hsent & Hdone) Hin] Hl [N1 HN1].
  destruct (Hch1 (lk_sent s ++ record msg)) as [Hcat Hok].
  destruct (c43 (ms ++ [msg]) (ch1 (lk_sent s ++ record msg)) EOF [] [] Hok) as (N2 & s' & e & HN2).
  { rewrite Hcat, Hsent, map_app, concat_app, app_nil_r. cbn. rewrite app_nil_r. reflexivity. }
  { apply Forall_app. split; [exact Hms|]. constructor; [exact Hl|constructor]. }
  { intros m rest _ Hx. apply (f_equal (@List.length _)) in Hx. unfold record in Hx.
    rewrite !app_length, be4_len in Hx. cbn in Hx. lia. }
  exists (N1 + N2)%nat. intros n Hn. cbn [link_conn c_write].
  rewrite (mark_record msg Hl). rewrite (proj1 (HN2 n ltac:(lia))).
  rewrite Hdone, skipn_app, skipn_all, Nat.sub_diag. cbn [skipn app serve].
  unfold handleReqErr. rewrite HN1 by lia. cbn [obind stream_conn c_write si_out app flat_map].
  rewrite Hin, app_length, Nat.add_1_r, app_nil_r. reflexivity.
Qed.

Lemma received_arg E targ tres user q x wargs : user_ok (W := W) E targ tres user -> req_ok q ->
  Wire ENC (xv_env (rq_args q)) (xv_ty (rq_args q)) (xv_val (rq_args q)) wargs ->
  received E targ (rq_args q) x -> arg_decodes E targ wargs x.
Proof.
  intros (H1 & _) (_ & _ & _ & (_ & Hty) & _) Hw. unfold received, arg_decodes.
  destruct targ as [t|]; [|trivial]. intros (HE & Ht & v & -> & Hs & Hk & Hv).
  destruct (H1 t eq_refl) as (D & HwE & Hwt & Hz). rewrite HE, Ht in Hw, Hty.
  destruct (fresh_ex D E t Hz) as [z Hf].
  destruct (dec_wire D E t HwE Hwt Hz ENC wargs [] (xv_val (rq_args q)) z Hw
    (fresh_ty E t _ Hf) (fresh_stale E t _ Hf)) as (v' & Hd & Hs'). rewrite app_nil_r in Hd.
  exists z, [], v'. split; [exact Hf|]. split; [exact Hd|]. f_equal.
  apply (same_canon_eq D E t); try assumption.
  - eapply same_trans; [apply (proj1 (same_sym E)); exact Hs|exact Hs'].
  - eapply runs_fresh_canon; eassumption.
  - eapply runs_ty; [eassumption|eassumption|apply (fresh_ty E t _ Hf)|exact Hd].
Qed.
Lemma void_wire w : Wire ENC [] (CStruct []) (VStruct []) w -> w = [].
Proof. intros H. inversion H as [| | | | | | | | | | | |fs l0 bs H1| | | |]; subst. inversion H1. reflexivity. Qed.

(** The client's side: a SUCCESS reply with the encoded result. *)
Lemma result_delivered E targ tres user q x w w' y xid b : user_ok (W := W) E targ tres user -> req_ok q -> u32 xid ->
  user x w = Ret (w', y) -> res_wire (Some (stub_res E tres y)) b -> resp_fits E tres (rq_resp q) ->
  exists v, delivered (mkAns E tres y) v /\
    forall v' e, reply_outcome xid (reply_accepted xid null_auth 0 ++ b) (rq_resp q) v' e -> v' = v /\ e = None.
Proof.
  intros (_ & H2 & H3) (_ & _ & _ & _ & ((D & HwE & Hwt & Hz) & Hty)) Hx Hu Hb Hfit.
  specialize (H3 _ _ _ _ Hu). cbn [res_wire] in Hb.
  assert (Hsucc : is_success (reply_accepted xid null_auth 0 ++ b) xid b).
  { split; [exact Hx|]. exists 0, [], null_auth. split; [|reflexivity].
    change null_auth with (be4 0 ++ be4 (zlen (@nil byte)) ++ [] ++ []). constructor; [apply u32_0|cbn; lia|].
    split; [cbn; lia|]. split; [reflexivity|]. discriminate. }
  assert (exists v, delivered (mkAns E tres y) v /\
    Decode (xv_env (rq_resp q)) (xv_ty (rq_resp q)) b (xv_val (rq_resp q)) None v) as (v & Hv & Hd).
  { unfold delivered, resp_fits, stub_res in *. cbn [an_ty an_val an_env].
    destruct tres as [t|].
    - destruct H3 as (r & -> & Hr'). destruct Hfit as (HE & Ht & Hst). rewrite HE, Ht in *.
      cbn [xv_env xv_ty xv_val] in Hb.
      destruct (dec_wire D E t HwE Hwt Hz ENC b [] r _ Hb Hty Hst) as (v & Hd & Hs). rewrite app_nil_r in Hd.
      exists v. split; [exists r; auto|]. apply Decode_runs. eexists. split; [exact Hd|reflexivity].
    - rewrite Hfit. cbn [xv_env xv_ty xv_val xv_void] in *. apply void_wire in Hb. subst b.
      exists (VStruct []). split; [reflexivity|]. exists 1%nat. reflexivity. }
  exists v. split; [exact Hv|]. intros v' e [(res & e' & Hs & Hd' & He)|(Hn & _)].
  - rewrite (success_inj _ _ _ _ Hs Hsucc) in Hd'. destruct (Decode_det _ _ _ _ _ _ _ _ Hd Hd') as [<- <-].
    split; [reflexivity|]. apply He. reflexivity.
  - exfalso. eapply Hn. exact Hsucc.
Qed.

Lemma e2e_one c q s w' a : client_ok c -> req_ok q -> encodable q -> idle s ->
  invokes l (next_xid c) (cl_prog c) (cl_vers c) q (lk_w s) w' a ->
  exists N s' v, idle s' /\ lk_w s' = w' /\ delivered a v /\
    forall n, (N <= n)%nat -> Calls (link_conn n ch1 ch2 srv) c s q (incr_xid c) s' v None.
Proof.
  intros Hc Hq He Hi [h E targ tres user x y Hlast Hag Hu Hrecv Hx Hb Hsize1 Hsize2 Hfit].
  (* the request *)
  destruct (call_request_spec _ _ (incr_ok _ Hc) Hq) as (_ & [[_ (msg & Hmsg & _)]|[Hne _]]); [|contradiction].
  change (request (next_xid c) (cl_prog c) (cl_vers c) q msg) in Hmsg.
  destruct (request_call c q msg Hc Hq Hmsg) as (f1 & b1 & f2 & b2 & wargs & Hcall & Hwa).
  pose proof (received_arg _ _ _ _ _ _ _ Hu Hq Hwa Hrecv) as Harg.
  (* the reply *)
  assert (exists b, res_wire (Some (stub_res E tres y)) b) as [b Hwb].
  { pose proof (stub_runs _ _ _ _ Hu _ _ _ _ _ Harg Hx) as Hrun.
    destruct (u_ok _ _ _ _ Hu) as [_ Hres]. specialize (Hres _ _ _ _ _ Hrun). cbn [res_ok res_wire res_bounded] in *.
    destruct Hres as ((D & HwE & Hwt & Hz) & Hty).
    destruct (c03 D _ _ HwE Hwt _ Hty) as ((b & e & Hb1) & Hb2 & Hb3 & _).
    exists b. apply Hb3. pose proof (proj2 (Hb2 _ _ Hb1) Hb) as ->. exact Hb1. }
  set (rep := reply_accepted (next_xid c) null_auth 0 ++ b).
  assert (Hmk : makes srv (lk_w s) msg w' (inr (mark (zlen rep) ++ rep))).
  { eapply decision_makes; [exact Hcall| |exact Hwb]. destruct (find_ok _ _ _ _ _ _ Hr Hg Hlast) as [Hf Ho].
    eapply D_success; [reflexivity|exact Hf|exact Ho|]. apply Hag. eapply stub_runs; eassumption. }
  assert (Hrl : zlen rep < 2 ^ 31).
  { specialize (Hsize2 b Hwb). unfold rep, reply_accepted, null_auth, zlen in *. rewrite !app_length, !be4_len. lia. }
  destruct (link_write s msg rep w' Hi (Hsize1 _ Hmsg) Hmk) as [N HN].
  destruct (result_delivered _ _ _ _ q _ _ _ _ (next_xid c) b Hu Hq (proj1 (incr_ok _ Hc)) Hx Hwb Hfit) as (v & Hv & Hdet).
  destruct (Hch2 (mark (zlen rep) ++ rep)) as [Hcat Hok].
  exists N. eexists. exists v. split; [|split; [|split; [exact Hv|]]].
  3:{ intros n Hn.
    assert (HW : forall m, request (next_xid c) (cl_prog c) (cl_vers c) q m ->
      c_write (link_conn n ch1 ch2 srv) s (mark (zlen m) ++ m) =
      (mkLink (lk_sent s ++ record msg) (S (lk_done s)) w'
         (mkStream (ch2 (mark (zlen rep) ++ rep)) (si_end (lk_str s)) (si_out (lk_str s))), None)).
    { intros m Hm. rewrite (req_unique (incr_xid c) q m msg (incr_ok _ Hc) Hq Hm Hmsg). apply HN. exact Hn. }
    destruct (link_call n ch1 ch2 srv c q s _ rep Hc Hq He HW) as (v' & e & Hcl & Ho).
    { exact Hok. } { cbn [lk_str si_in]. rewrite Hcat. apply mark_record. exact Hrl. } { exact Hrl. }
    destruct (Hdet _ _ Ho) as [-> ->]. exact Hcl. }
  - destruct Hi as [(ms & Hms & Hsent & Hdone) Hin]. split; [|reflexivity].
    exists (ms ++ [msg]). cbn [lk_sent lk_done]. split; [|split].
    + apply Forall_app. split; [exact Hms|]. constructor; [exact (Hsize1 _ Hmsg)|constructor].
    + rewrite Hsent, map_app, concat_app. cbn. rewrite app_nil_r. reflexivity.
    + rewrite Hdone, app_length. cbn. lia.
  - reflexivity.
Qed.

Lemma e2e qs : forall c s w' rs, client_ok c -> Forall req_ok qs -> Forall encodable qs -> idle s ->
  invokes_all l (cl_prog c) (cl_vers c) (next_xid c) qs (lk_w s) w' rs ->
  exists N c' s' vs, idle s' /\ lk_w s' = w' /\ Forall2 delivered rs vs /\
    forall n, (N <= n)%nat ->
      CallSeq (link_conn n ch1 ch2 srv) c s qs c' s' (map (fun v => (v, None)) vs).
Proof.
  induction qs as [|q qs IH]; intros c s w' rs Hc Hq He Hi Ha; inversion Ha as [xid w Hx|xid q' qs' w w1 w2 a rs' H1 H2]; subst.
  - exists 0%nat, c, s, []. split; [exact Hi|]. split; [reflexivity|]. split; [constructor|]. intros. constructor.
  - inversion Hq as [|? ? Hq1 Hq2]; subst. inversion He as [|? ? He1 He2]; subst.
    destruct (e2e_one c q s w1 a Hc Hq1 He1 Hi H1) as (N1 & s1 & v & Hi1 & <- & Hd & HN1).
    destruct (IH (incr_xid c) s1 w' rs' (incr_ok _ Hc) Hq2 He2 Hi1 H2) as (N2 & c' & s' & vs & Hi' & Hw' & Hvs & HN2).
    exists (N1 + N2)%nat, c', s', (v :: vs). split; [exact Hi'|]. split; [exact Hw'|]. split; [constructor; assumption|].
    intros n Hn. cbn [map]. econstructor; [apply HN1; lia|apply HN2; lia].
Qed.
End Run.
