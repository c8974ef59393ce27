(** Clients and the concurrent server together: /repo/rfc1057/client.go:27-108 on one side of
    each connection, /repo/rfc1057/server.go:13-30, 69-182 on the other, every goroutine of
    every process moving on its own.

    Each client has a connection of its own and makes one call after another on it.  The
    network between them delivers bytes in order, in pieces of any size, after any time.
    A Read waits while nothing has arrived; the server's Read meets the end of the input only
    after the client closed the connection.  The server's Writes may fail (Conc.v), after
    which its client may wait for ever; the client's Writes do not fail. *)
From Verif Require Import Bytes XdrLib Types Interp Spec Meta Runs RpcTypes RpcSpec Io Client CallSpec CliConc Server ServSpec Heap Conc ConcL.
From Verif Require E2E.
Open Scope string_scope.
Open Scope Z_scope.
Open Scope list_scope.

(** Bytes [ds] arrive at the server's end of a connection. *)
Definition kpush (ds : list (list byte)) (k : kconn) : kconn :=
  mkK (mkStream (si_in (k_in k) ++ ds) (si_end (k_in k)) (si_out (k_in k))) (k_rd k) (k_out k) (k_part k) (k_broken k)
      (k_reqs k) (k_quiet k) (k_fail k).
Definition push {W L} (i : nat) (ds : list (list byte)) (c : cfg W L) : cfg W L :=
  mkC (c_heap c) (c_pool c) (updk (c_conns c) i (kpush ds (c_conns c i))) (c_tasks c) (c_world c) (c_crashed c) (c_hist c).

(** A finished call, with the value of the result variable and the error returned. *)
Definition result : Type := (callreq * val * option cerr)%type.

(** A client: the Client struct, the call under way and how far it is (CliConc.v), the number
    of bytes read from the connection, the finished calls, and whether the connection was
    closed. *)
Record peer : Type := mkPeer {
  p_cl : client; p_th : option (callreq * CliConc.thread); p_pos : nat; p_done : list result; p_closed : bool }.
Definition updp (f : nat -> peer) (i : nat) (p : peer) : nat -> peer := fun j => if Nat.eqb j i then p else f j.

(** Is the next step a Read of the connection? *)
Definition waiting (t : CliConc.thread) : Prop := match t with TRead _ _ (S _) _ => True | _ => False end.

Section Net.
Context {W : Type}.
(** The server behind connection [i], and what client [i] does: the next call, given the
    results of the earlier ones. *)
Variable srv : nat -> server W.
Variable prog : nat -> list result -> option callreq.
Definition net : Type := (cfg W unit * (nat -> peer))%type.

Inductive nstep : net -> net -> Prop :=
(** An action of a reader, a handler or the pool of the server. *)
| N_srv c c' f : step tt (reply_step srv) c c' ->
    (forall i e, k_rd (c_conns c' i) = RDone (RIo e) -> p_closed (f i) = true) ->
    nstep (c, f) (c', f)
(** Client [i] starts its next call. *)
| N_next c f i q : p_th (f i) = None -> p_closed (f i) = false -> prog i (p_done (f i)) = Some q ->
    nstep (c, f) (c, updp f i (mkPeer (p_cl (f i)) (Some (q, TStart q)) (p_pos (f i)) (p_done (f i)) false))
(** Client [i] makes a step of its call: [cs] is what has arrived and is offered to a Read; what is
    written arrives at the server as the pieces [ds]. *)
| N_cli c f i q t cs rest N c1 s1 t1 ds : p_th (f i) = Some (q, t) -> (forall v e, t <> TDone v e) ->
    skipn (p_pos (f i)) (received (c_conns c i)) = List.concat cs ++ rest -> chunks_ok cs -> (waiting t -> cs <> []) ->
    (forall n, (N <= n)%nat -> tstep n stream_conn (p_cl (f i)) (mkStream cs EOF []) t = (c1, s1, t1)) ->
    chunks_ok ds -> List.concat ds = List.concat (si_out s1) ->
    nstep (c, f) (push i ds c,
      updp f i (mkPeer c1 (Some (q, t1)) (p_pos (f i) + (List.length (List.concat cs) - List.length (List.concat (si_in s1))))
                       (p_done (f i)) (p_closed (f i))))
(** The call returns. *)
| N_ret c f i q v e : p_th (f i) = Some (q, TDone v e) ->
    nstep (c, f) (c, updp f i (mkPeer (p_cl (f i)) None (p_pos (f i)) (p_done (f i) ++ [(q, v, e)]) (p_closed (f i))))
(** The connection is closed by its owner (the Client has no Close), between calls. *)
| N_close c f i : p_th (f i) = None -> p_closed (f i) = false ->
    nstep (c, f) (c, updp f i (mkPeer (p_cl (f i)) None (p_pos (f i)) (p_done (f i)) true)).

Inductive nsteps : net -> net -> Prop :=
| nsteps_refl x : nsteps x x
| nsteps_snoc x y z : nsteps x y -> nstep y z -> nsteps x z.

(** Nothing sent, nothing under way; client [i] is [cl i]. *)
Definition ninit (h : heap) (w : W) (cl : nat -> client) : net :=
  (init h (fun _ => ([], EOF)) w, fun i => mkPeer (cl i) None 0 [] false).

(** The client after [j] calls, and the xid of call number [j] (from 0). *)
Definition after (c : client) (j : nat) : client := Nat.iter j incr_xid c.
Definition xid_of (c : client) (j : nat) : Z := next_xid (after c j).

(** What the programs of the clients call: well-typed and encodable requests below 2 GiB, whose
    replies are below 2 GiB. *)
Definition calls_ok (cl : nat -> client) : Prop := forall i done q, prog i done = Some q ->
  req_ok q /\ encodable q /\
  forall m, request (xid_of (cl i) (List.length done)) (cl_prog (cl i)) (cl_vers (cl i)) q m ->
    zlen m < 2 ^ 31 /\ forall w w' rep, sends (srv i) w m w' rep -> zlen rep < 2 ^ 31.
End Net.
Arguments net W : clear implicits.

(** The call made as number [j]. *)
Definition nth_call (x : peer) (j : nat) (q : callreq) : Prop :=
  (exists v e, nth_error (p_done x) j = Some (q, v, e)) \/ j = List.length (p_done x) /\ exists t, p_th x = Some (q, t).

Section Spec.
Context {W : Type}.
Variable srv : nat -> server W.
Variable cl : nat -> client.

(** Calls executed one after another: call [j] of client [i] is [q], its message handled by the
    server gives the reply (or none). *)
Definition entry_t : Type := (nat * nat * callreq * option (list byte))%type.
Inductive linear (w0 : W) : list entry_t -> W -> Prop :=
| Ln_nil : linear w0 [] w0
| Ln_reply tr w i j q m w' rep : linear w0 tr w -> request (xid_of (cl i) j) (cl_prog (cl i)) (cl_vers (cl i)) q m ->
    sends (srv i) w m w' rep -> linear w0 (tr ++ [(i, j, q, Some rep)]) w'
| Ln_quiet tr w i j q m w' : linear w0 tr w -> request (xid_of (cl i) j) (cl_prog (cl i)) (cl_vers (cl i)) q m ->
    silent (srv i) w m w' -> linear w0 (tr ++ [(i, j, q, None)]) w'.

(** In network state [x], [tr] explains everything that was seen: the world is the one after
    [tr]; a call occurs at most once in it, and only if it has been made; every call that has
    returned occurs in it, and returned what its reply there says. *)
Record explains (w0 : W) (x : net W) (tr : list entry_t) : Prop := mkExpl {
  ex_world : linear w0 tr (c_world (fst x));
  ex_once : NoDup (map (fun e : entry_t => fst (fst e)) tr);
  ex_made : forall i j q o, In (i, j, q, o) tr -> nth_call (snd x i) j q;
  ex_done : forall i j q v e, nth_error (p_done (snd x i)) j = Some (q, v, e) ->
    exists rep, In (i, j, q, Some rep) tr /\ reply_outcome (xid_of (cl i) j) rep (rq_resp q) v e }.

Variable regs : nat -> list (registration W).
Variable prog : nat -> list result -> option callreq.
(** What call [j] of client [i] is to do: [spec i j q w w' a], made in world [w] it takes the world to [w'] and
    returns the answer [a]. *)
Variable spec : nat -> nat -> callreq -> W -> W -> E2E.answer -> Prop.

(** Calls executed one after another. *)
Inductive invoked (w0 : W) : list (nat * nat * callreq * E2E.answer) -> W -> Prop :=
| Iv_nil : invoked w0 [] w0
| Iv_call tr w i j q w' a : invoked w0 tr w -> spec i j q w w' a -> invoked w0 (tr ++ [(i, j, q, a)]) w'.

(** In network state [x], [tr] explains everything that was seen: as in [explains], with answers for replies;
    every call that has returned has returned nil, and the answer. *)
Record atomic (w0 : W) (x : net W) (tr : list (nat * nat * callreq * E2E.answer)) : Prop := mkAtomic {
  at_world : invoked w0 tr (c_world (fst x));
  at_once : NoDup (map (fun e : nat * nat * callreq * E2E.answer => fst (fst e)) tr);
  at_made : forall i j q a, In (i, j, q, a) tr -> nth_call (snd x i) j q;
  at_done : forall i j q v e, nth_error (p_done (snd x i)) j = Some (q, v, e) ->
    e = None /\ exists a, In (i, j, q, a) tr /\ E2E.delivered a v }.

(** Every call of every client is well-typed, and a procedure that does what [spec] says is registered for it. *)
Definition served : Prop := forall i done q, prog i done = Some q -> req_ok q /\ encodable q /\
  forall w, exists w' a, spec i (List.length done) q w w' a /\ E2E.invokes (regs i) (xid_of (cl i) (List.length done)) (cl_prog (cl i)) (cl_vers (cl i)) q w w' a.

(** A step in which no call is started and no connection closed. *)
Definition move (x y : net W) : Prop := nstep srv prog x y /\ forall i, p_th (snd x i) = None -> snd y i = snd x i.
Inductive moves : nat -> net W -> net W -> Prop :=
| moves_0 x : moves 0 x x
| moves_S n x y z : moves n x y -> move y z -> moves (S n) x z.
(** Nothing but the pool losing buffers has happened. *)
Definition unmoved (x y : net W) : Prop := still (fst x) (fst y) /\ forall i, snd y i = snd x i.
(** Nothing else can happen before a call is started or a connection closed. *)
Definition quiet (x : net W) : Prop := forall y, move x y -> unmoved x y.
End Spec.

