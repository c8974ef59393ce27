(** C62: clients and server together, every schedule.  [nsteps srv prog x y]: from network state [x] to [y] by steps of
    the clients, of the server's goroutines and of the network; client [i] makes the calls [prog i] says, each depending on
    the results before it, and talks to server [srv i]; all share one world.  [explains] and [atomic]: a sequence of calls, executed
    one at a time, accounts for the world and for everything the clients saw.  [moves n x y]: [n] steps of calls already
    under way and of the server. *)
From Verif Require Import Bytes XdrLib Types Interp Spec Runs RpcTypes RpcSpec RpcDec Io Client CallSpec CliConc Server ServSpec ServerX ServerL Heap
  Conc ConcL Net NetR NetL E2E CliEx NetEx.
Open Scope string_scope.
Open Scope Z_scope.
Open Scope list_scope.

(** Whatever is called: there is an order of the calls, extended as time goes on, in which the server could have handled
    them one at a time.  A call not yet made at [x] comes after all that have returned by then. *)
Theorem C62_linearizable : forall (W : Type) (srv : nat -> server W) (cl : nat -> client) regs,
  (forall i, reach (srv i) (regs i) /\ regs_ok (regs i)) -> (forall i, client_ok (cl i)) ->
  forall prog, calls_ok srv prog cl ->
  forall h0 w0 x y, nsteps srv prog (ninit h0 w0 cl) x -> nsteps srv prog x y ->
  exists tr1 tr2, explains srv cl w0 x tr1 /\ explains srv cl w0 y (tr1 ++ tr2).
Proof. exact @linearizable. Qed.
Print Assumptions C62_linearizable.

(** The calls are those of the programs, and none crashes. *)
Theorem C62_program : forall (W : Type) (srv : nat -> server W) (cl : nat -> client) regs,
  (forall i, reach (srv i) (regs i) /\ regs_ok (regs i)) -> (forall i, client_ok (cl i)) ->
  forall prog, calls_ok srv prog cl ->
  forall h0 w0 x, nsteps srv prog (ninit h0 w0 cl) x -> forall i,
  p_cl (snd x i) = after (cl i) (List.length (p_done (snd x i)) + match p_th (snd x i) with None | Some (_, TStart _) => 0 | _ => 1 end) /\
  (forall j q v e, nth_error (p_done (snd x i)) j = Some (q, v, e) -> prog i (firstn j (p_done (snd x i))) = Some q) /\
  (forall q t, p_th (snd x i) = Some (q, t) -> prog i (p_done (snd x i)) = Some q /\ t <> TCrash).
Proof. exact @program. Qed.
Print Assumptions C62_program.

(** Calls of procedures that are registered: every one that has returned has returned nil and what the procedure computed,
    in a world that is the outcome of the calls before it in the order. *)
Theorem C62_atomic : forall (W : Type) (srv : nat -> server W) (cl : nat -> client) regs,
  (forall i, reach (srv i) (regs i) /\ regs_ok (regs i)) -> (forall i, client_ok (cl i)) ->
  forall prog spec, served cl regs prog spec ->
  forall h0 w0 x y, nsteps srv prog (ninit h0 w0 cl) x -> nsteps srv prog x y ->
  exists tr1 tr2, atomic spec w0 x tr1 /\ atomic spec w0 y (tr1 ++ tr2).
Proof. exact @atomic_calls. Qed.
Print Assumptions C62_atomic.

(** What the sequences in [explains] and [atomic] are: each call is executed in the world the calls before it left. *)
Theorem C62_sequence : forall (W : Type) (spec : nat -> nat -> callreq -> W -> W -> answer -> Prop) w0,
  (forall w, invoked spec w0 [] w <-> w = w0) /\
  (forall tr i j q a w', invoked spec w0 (tr ++ [(i, j, q, a)]) w' <-> exists w, invoked spec w0 tr w /\ spec i j q w w' a).
Proof. exact invoked_iff. Qed.
Print Assumptions C62_sequence.
Theorem C62_sequence_bytes : forall (W : Type) (srv : nat -> server W) (cl : nat -> client) w0,
  (forall w, linear srv cl w0 [] w <-> w = w0) /\
  (forall tr i j q o w', linear srv cl w0 (tr ++ [(i, j, q, o)]) w' <-> exists w m, linear srv cl w0 tr w /\ request (xid_of (cl i) j) (cl_prog (cl i)) (cl_vers (cl i)) q m /\
     match o with Some rep => sends (srv i) w m w' rep | None => silent (srv i) w m w' end).
Proof. exact linear_iff. Qed.
Print Assumptions C62_sequence_bytes.

(** Without new calls, only so much can happen. *)
Theorem C62_bounded : forall (W : Type) (srv : nat -> server W) (cl : nat -> client) regs,
  (forall i, reach (srv i) (regs i) /\ regs_ok (regs i)) -> (forall i, client_ok (cl i)) ->
  forall prog spec, served cl regs prog spec ->
  forall h0 w0 x, nsteps srv prog (ninit h0 w0 cl) x -> exists B, forall n y, moves srv prog n x y -> (n <= B)%nat.
Proof. exact @moves_finite. Qed.
Print Assumptions C62_bounded.

(** It comes to rest only when every call has returned, where no write of the server failed; a call under way can
    always be brought to its end. *)
Theorem C62_returns : forall (W : Type) (srv : nat -> server W) (cl : nat -> client) regs,
  (forall i, reach (srv i) (regs i) /\ regs_ok (regs i)) -> (forall i, client_ok (cl i)) ->
  forall prog spec, served cl regs prog spec -> (forall i, prompt_regs (regs i)) ->
  forall h0 w0 x, nsteps srv prog (ninit h0 w0 cl) x -> quiet srv prog x ->
  forall i, k_broken (c_conns (fst x) i) = false -> p_th (snd x i) = None.
Proof. exact @quiet_returned. Qed.
Print Assumptions C62_returns.
Theorem C62_can_return : forall (W : Type) (srv : nat -> server W) (cl : nat -> client) regs,
  (forall i, reach (srv i) (regs i) /\ regs_ok (regs i)) -> (forall i, client_ok (cl i)) ->
  forall prog spec, served cl regs prog spec -> (forall i, prompt_regs (regs i)) ->
  forall h0 w0 x i q t, nsteps srv prog (ninit h0 w0 cl) x -> p_th (snd x i) = Some (q, t) ->
  k_broken (c_conns (fst x) i) = false ->
  exists n y v e, moves srv prog n x y /\ p_th (snd y i) = None /\ p_done (snd y i) = p_done (snd x i) ++ [(q, v, e)] /\
    forall j, k_broken (c_conns (fst y) j) = k_broken (c_conns (fst x) j).
Proof. exact @can_return. Qed.
Print Assumptions C62_can_return.

(** A counter at 0, to which one client adds 5 and another 10: both calls can return, and whenever they have, the counter is
    15 and the results are 5 and 15, or 15 and 10. *)
Example C62_example : (forall i : nat, reach cnt_srv cnt_regs /\ regs_ok cnt_regs) /\ (forall i : nat, client_ok exc_c) /\
  served (fun _ => exc_c) (fun _ => cnt_regs) cnt_prog cnt_spec /\ (forall i : nat, prompt_regs cnt_regs) /\
  (exists x q0 v0 e0 q1 v1 e1, nsteps (fun _ => cnt_srv) cnt_prog (ninit [] 0 (fun _ => exc_c)) x /\
     p_done (snd x 0%nat) = [(q0, v0, e0)] /\ p_done (snd x 1%nat) = [(q1, v1, e1)]) /\
  forall x q0 v0 e0 q1 v1 e1, nsteps (fun _ => cnt_srv) cnt_prog (ninit [] 0 (fun _ => exc_c)) x ->
     p_done (snd x 0%nat) = [(q0, v0, e0)] -> p_done (snd x 1%nat) = [(q1, v1, e1)] ->
     e0 = None /\ e1 = None /\ c_world (fst x) = 15 /\ (v0 = VInt 5 /\ v1 = VInt 15 \/ v0 = VInt 15 /\ v1 = VInt 10).
Proof. exact (conj cnt_ok (conj cnt_cl (conj cnt_served (conj cnt_prompt (conj cnt_exists cnt_results))))). Qed.
Example C62_calls_ok : calls_ok (fun _ => cnt_srv) cnt_prog (fun _ => exc_c).
Proof. exact (served_calls_ok _ _ _ cnt_ok cnt_cl cnt_prog cnt_spec cnt_served 0). Qed.
