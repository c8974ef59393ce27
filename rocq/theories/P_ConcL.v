(** C60: the server comes to the end of its input.  [sched linit hstep K n c c']: [n] actions lead from [c] to [c'], in which
    only the readers of connections 0 .. K-1 take part, and any handlers; [ended K c]: these readers have returned and no
    goroutine is left; [stopped]: nothing but the pool losing buffers can still happen.  [prompt h]: handler [h] returns. *)
From Verif Require Import Bytes XdrLib Types Interp Spec Runs RpcTypes RpcSpec RpcDec Io CallSpec Server ServSpec ServerX ServerL Heap HeapQ
  Conc ConcQ ConcR ConcEx ConcL ConcM.
From Coq Require Import Permutation.
Open Scope string_scope.
Open Scope Z_scope.
Open Scope list_scope.

(** Any handlers that take finitely many actions: the number of actions of the whole process is bounded by the amount of input. *)
Theorem C60_bounded : forall (W L : Type) (linit : L) (hstep : nat -> list byte -> W -> L -> hresult W L -> Prop) (hm : L -> nat),
  (forall i own w l w' o l', hstep i own w l (HMore w' o l') -> (hm l' < hm l)%nat) ->
  forall h0 ins (w0 : W), (forall i, chunks_ok (fst (ins i))) ->
  forall K n c, sched linit hstep K n (init h0 ins w0) c -> (n <= 1 + K + (hm linit + 7) * input_bytes ins K)%nat.
Proof. exact @sched_finite. Qed.
Print Assumptions C60_bounded.

(** Generated handlers return when the user's procedure does. *)
Theorem C60_generated_handlers : forall W E targ tres (user : option val -> W -> outcome (W * option val)),
  user_ok E targ tres user -> (forall x w, exists r, user x w = Ret r) -> prompt (stub E targ tres user).
Proof. exact @stub_prompt. Qed.
Print Assumptions C60_generated_handlers.

(** Then no request, whatever its bytes, crashes the process. *)
Theorem C60_no_crash : forall (W : Type) (srv : nat -> server W) regs,
  (forall i, reach (srv i) (regs i) /\ regs_ok (regs i)) -> (forall i, prompt_regs (regs i)) ->
  forall h0 ins (w0 : W) c, steps tt (reply_step srv) (init h0 ins w0) c -> c_crashed c = false.
Proof. exact @never_crashes. Qed.
Print Assumptions C60_no_crash.

(** Every schedule can be continued to the end, and stops nowhere else. *)
Theorem C60_ends : forall (W : Type) (srv : nat -> server W) regs,
  (forall i, reach (srv i) (regs i) /\ regs_ok (regs i)) -> (forall i, prompt_regs (regs i)) ->
  forall h0 ins (w0 : W), (forall i, chunks_ok (fst (ins i))) ->
  forall K n c, sched tt (reply_step srv) K n (init h0 ins w0) c ->
  (n <= 1 + K + 7 * input_bytes ins K)%nat /\
  (exists m c', (n <= m)%nat /\ sched tt (reply_step srv) K m (init h0 ins w0) c' /\ ended K c') /\
  (stopped tt (reply_step srv) K c <-> ended K c).
Proof.
  exact (fun W srv regs Hr Hp h0 ins w0 Hi K n c S =>
    conj (srv_finite srv h0 ins w0 Hi K n c S) (conj (srv_to_the_end srv regs Hr Hp h0 ins w0 Hi K n c S)
      (conj (srv_stuck srv regs Hr Hp h0 ins w0 Hi K n c S) (ended_stopped tt (reply_step srv) K c)))).
Qed.
Print Assumptions C60_ends.

(** At the end, on a connection none of whose writes failed: the requests are those Run finds in the input, and each has been
    answered or handled without a reply, once; calls have been answered, under their own xid, if results can be encoded. *)
Theorem C60_complete : forall (W : Type) (srv : nat -> server W) h0 ins (w0 : W), (forall i, chunks_ok (fst (ins i))) ->
  forall K c, steps tt (reply_step srv) (init h0 ins w0) c -> ended K c -> forall i, (i < K)%nat -> k_broken (c_conns c i) = false ->
  (exists N s' e', forall n, (N <= n)%nat ->
     run_loop n stream_conn (mkStream (fst (ins i)) (snd (ins i)) []) [] = Ret (s', k_reqs (c_conns c i), e')) /\
  Permutation (map fst (k_out (c_conns c i)) ++ k_quiet (c_conns c i)) (seq 0 (List.length (k_reqs (c_conns c i)))) /\
  received (c_conns c i) = List.concat (map snd (k_out (c_conns c i))).
Proof. exact @srv_done. Qed.
Print Assumptions C60_complete.
Theorem C60_calls_answered : forall (W : Type) (srv : nat -> server W) regs,
  (forall i, reach (srv i) (regs i) /\ regs_ok (regs i)) ->
  forall h0 ins (w0 : W), (forall i, chunks_ok (fst (ins i))) ->
  forall K c, steps tt (reply_step srv) (init h0 ins w0) c -> ended K c -> forall i, (i < K)%nat -> k_broken (c_conns c i) = false ->
  (forall r h s w w' res e, In r (regs i) -> rg_handler r = Some h -> HRuns h s w (w', res, e) -> res_bounded res) ->
  forall k req xid rv prog vers proc f1 b1 f2 b2 args, nth_error (k_reqs (c_conns c i)) k = Some req ->
  is_call DEC req xid rv prog vers proc f1 b1 f2 b2 args ->
  exists t, In (k, mark (zlen (be4 xid ++ be4 1 ++ t)) ++ be4 xid ++ be4 1 ++ t) (k_out (c_conns c i)).
Proof. exact @srv_answers. Qed.
Print Assumptions C60_calls_answered.

(** The echo server on two connections: at most 773 actions; one schedule of 23. *)
Example C60_ex : (forall i : nat, reach exk_srv exk_regs /\ regs_ok exk_regs) /\ prompt_regs exk_regs /\ (forall i, chunks_ok (fst (exk_ins i))) /\
  input_bytes exk_ins 2 = 110%nat /\
  exists c, sched tt (reply_step (fun _ => exk_srv)) 2 23 (init [] exk_ins 0) c /\ ended 2 c /\
  k_broken (c_conns c 0) = false /\ k_reqs (c_conns c 0) = [exk_req 1 exk_a; exk_req 2 exk_b] /\
  k_out (c_conns c 0) = [(1%nat, record (exk_rep 2 exk_b)); (0%nat, record (exk_rep 1 exk_a))].
Proof. exact (conj (fun _ => exk_ok) (conj exk_prompt (conj exk_ins_ok (conj exk_bytes c60_ex)))). Qed.
