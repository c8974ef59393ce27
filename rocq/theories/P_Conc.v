(** C40 - C42: the server under every schedule.  A configuration of the whole process (memory,
    the pool, all connections, all handler goroutines, the state behind the handlers) moves by
    single actions of readers and handlers; [steps] is any number of them in any order. *)
From Verif Require Import Bytes XdrLib Types Interp Spec Runs RpcTypes RpcSpec Io CallSpec Server ServSpec ServerX Heap HeapQ
  Conc ConcQ ConcR ConcEx.
From Coq Require Import Permutation.
Open Scope string_scope.
Open Scope Z_scope.
Open Scope list_scope.

(** No two goroutines in flight use the same memory, nor does one share memory with a pooled
    buffer or with a buffer a reader is filling, nor do two readers. *)
Theorem C40_not_shared : forall (W L : Type) (linit : L) hstep h0 ins (w0 : W), (forall i, chunks_ok (fst (ins i))) ->
  forall c, steps linit hstep (init h0 ins w0) c ->
  NoDup (map (fun t => sl_blk (tk_buf t)) (c_tasks c)) /\
  (forall t b, In t (c_tasks c) -> In b (c_pool c) -> sl_blk (tk_buf t) <> sl_blk b) /\
  (forall t i b acc, In t (c_tasks c) -> k_rd (c_conns c i) = RBody b acc -> sl_blk (tk_buf t) <> sl_blk b) /\
  (forall i j b acc b' acc', k_rd (c_conns c i) = RBody b acc -> k_rd (c_conns c j) = RBody b' acc' -> i <> j -> sl_blk b <> sl_blk b').
Proof. exact @c40_distinct. Qed.
Print Assumptions C40_not_shared.

(** Handlers that do not write to their request: every goroutine's buffer holds exactly the
    request it was started for, until it is put back. *)
Theorem C40_request_bytes : forall (W L : Type) (linit : L) hstep h0 ins (w0 : W) c,
  steps linit hstep (init h0 ins w0) c -> keeps hstep ->
  forall t, In t (c_tasks c) ->
  nth_error (k_reqs (c_conns c (tk_conn t))) (tk_id t) = Some (sread (c_heap c) (tk_buf t)).
Proof. exact @c40_own. Qed.
Print Assumptions C40_request_bytes.

(** Any handlers, also ones that do write to their request: what the handler of each request
    did is what it would do alone on a buffer that starts with that request's bytes, given the
    same outside world at each of its actions. *)
Theorem C40_private : forall (W L : Type) (linit : L) hstep h0 ins (w0 : W), (forall i, chunks_ok (fst (ins i))) ->
  forall c, steps linit hstep (init h0 ins w0) c ->
  forall i k req, nth_error (k_reqs (c_conns c i)) k = Some req ->
  exists own st, thread linit hstep i req (of_req i k (c_hist c)) own st /\
  forall t, In t (c_tasks c) -> tk_conn t = i -> tk_id t = k -> tk_ph t <> TPut ->
    stat_of (tk_ph t) = Some st /\ sread (c_heap c) (tk_buf t) = own.
Proof. exact @c40_threads. Qed.
Print Assumptions C40_private.

(** The requests of a connection are the records at the start of its input, in order; when the
    reader has returned, no further complete record follows. *)
Theorem C40_requests_are_records : forall (W L : Type) (linit : L) hstep h0 ins (w0 : W), (forall i, chunks_ok (fst (ins i))) ->
  forall c, steps linit hstep (init h0 ins w0) c ->
  forall i, exists rest, List.concat (fst (ins i)) = List.concat (map record (k_reqs (c_conns c i))) ++ rest /\
  Forall (fun m => zlen m < 2 ^ 31) (k_reqs (c_conns c i)) /\
  (forall e, k_rd (c_conns c i) = RDone e -> no_record rest).
Proof. exact @c40_inputs. Qed.
Print Assumptions C40_requests_are_records.

(** One goroutine in flight, another connection's reader about to fill its buffer. *)
Example C40_ex : (forall i, chunks_ok (fst (exk_ins i))) /\ keeps (reply_step (fun _ => exk_srv)) /\
  exists c, steps tt (reply_step (fun _ => exk_srv)) (init [] exk_ins 0) c /\
  List.length (c_tasks c) = 1%nat /\ exists b, k_rd (c_conns c 1) = RBody b [] /\ k_rd (c_conns c 0) = RHdr [].
Proof. split; [exact exk_ins_ok|]. split; [exact (reply_keeps _)|exact c40_ex]. Qed.

(** Until its goroutine puts the buffer back (after the reply is written), any part of the
    buffer still reads as that part of the request. *)
Theorem C41_valid_until_reply : forall (W L : Type) (linit : L) hstep h0 ins (w0 : W) c,
  steps linit hstep (init h0 ins w0) c -> keeps hstep ->
  forall t sl k, In t (c_tasks c) -> part_of (tk_buf t) sl k ->
  exists req, nth_error (k_reqs (c_conns c (tk_conn t))) (tk_id t) = Some req /\
    sread (c_heap c) sl = firstn (sl_len sl) (skipn k req).
Proof. exact @c41_valid. Qed.
Print Assumptions C41_valid_until_reply.

(** Afterwards any connection's next request that fits can overwrite it. *)
Theorem C41_reuse : forall (W L : Type) (linit : L) hstep (c : cfg W L) p1 b p2 i acc n d cs,
  c_crashed c = false -> c_pool c = p1 ++ b :: p2 -> svalid (c_heap c) b ->
  k_rd (c_conns c i) = RHdr acc -> List.length acc = 4%nat -> acc = be4 (2 ^ 31 + Z.of_nat n) -> (0 < n <= sl_cap b)%nat ->
  Z.of_nat n < 2 ^ 31 -> si_in (k_in (c_conns c i)) = d :: cs -> List.length d = n ->
  exists c', steps linit hstep c c' /\ sread (c_heap c') (mkSl (sl_blk b) (sl_off b) n (sl_cap b)) = d.
Proof. exact @c41_reuse. Qed.
Print Assumptions C41_reuse.

(** A schedule in which a retained argument changes: in [c1] the handler of the first request
    decodes its opaque argument, giving the slice [sl]; in [c2] the reply has been written and
    the next request read, and [sl] shows the next request's argument. *)
Theorem C41_retained_changes : exists c1 c2 t sl,
  steps tt (reply_step (fun _ => exk_srv)) (init [] exk_ins 0) c1 /\
  steps tt (reply_step (fun _ => exk_srv)) c1 c2 /\
  c_tasks c1 = [t] /\ sread (c_heap c1) (tk_buf t) = exk_req 1 exk_a /\ part_of (tk_buf t) exk_args 40 /\
  hxdr exh_grow 3 [] (CVarOpaque None) (c_heap c1) (mkHst None true (Some exk_args)) (HBytes None)
    = Ret (c_heap c1, mkHst None true (Some (mkSl 0 48 0 0)), HBytes (Some sl)) /\
  sread (c_heap c1) sl = exk_a /\
  k_out (c_conns c2 0) = [(0%nat, record (exk_rep 1 exk_a))] /\
  sread (c_heap c2) sl = exk_b.
Proof. exact c41_bad. Qed.
Print Assumptions C41_retained_changes.

(** What a peer has received is whole records (followed by part of one only after its
    connection broke); every request read on the connection is exactly one of: answered, handled
    without a reply, failed to write, still in flight. *)
Theorem C42_account : forall (W L : Type) (linit : L) hstep h0 ins (w0 : W), (forall i, chunks_ok (fst (ins i))) ->
  forall c, steps linit hstep (init h0 ins w0) c -> forall i,
  NoDup (map fst (k_out (c_conns c i))) /\
  (k_broken (c_conns c i) = false -> k_part (c_conns c i) = [] /\ k_fail (c_conns c i) = []) /\
  Permutation (map fst (k_out (c_conns c i)) ++ k_quiet (c_conns c i) ++ k_fail (c_conns c i) ++
               map (@tk_id L) (filter (active i) (c_tasks c))) (seq 0 (List.length (k_reqs (c_conns c i)))).
Proof. exact @c42_account. Qed.
Print Assumptions C42_account.

(** Each record written on a connection is a reply the server makes to that request of that
    same connection. *)
Theorem C42_whole_replies : forall (W : Type) (srv : nat -> server W) regs,
  (forall i, reach (srv i) (regs i) /\ regs_ok (regs i)) ->
  forall h0 ins (w0 : W), (forall i, chunks_ok (fst (ins i))) ->
  forall c, steps tt (reply_step srv) (init h0 ins w0) c ->
  forall i k rec, In (k, rec) (k_out (c_conns c i)) ->
  exists req w w' rep, nth_error (k_reqs (c_conns c i)) k = Some req /\ sends (srv i) w req w' rep /\ rec = mark (zlen rep) ++ rep.
Proof. exact @c42_out. Qed.
Print Assumptions C42_whole_replies.

(** All replies together, and the state behind the handlers, are those of handling the
    requests one after another in some order, each once. *)
Theorem C42_serial : forall (W : Type) (srv : nat -> server W) regs,
  (forall i, reach (srv i) (regs i) /\ regs_ok (regs i)) ->
  forall h0 ins (w0 : W), (forall i, chunks_ok (fst (ins i))) ->
  forall c, steps tt (reply_step srv) (init h0 ins w0) c ->
  exists tr, serial srv (fun i => k_reqs (c_conns c i)) w0 tr (c_world c) /\ NoDup (map fst tr) /\
  (forall i k rec, In (k, rec) (k_out (c_conns c i)) -> In (i, k, Some rec) tr) /\
  (forall i k, In k (k_quiet (c_conns c i)) -> In (i, k, None) tr) /\
  (forall i k, In k (k_fail (c_conns c i)) -> exists rec, In (i, k, Some rec) tr) /\
  (forall i, k_part (c_conns c i) = [] \/ exists k rec x, In k (k_fail (c_conns c i)) /\ In (i, k, Some rec) tr /\
     rec = k_part (c_conns c i) ++ x).
Proof. exact @c42_serial. Qed.
Print Assumptions C42_serial.

(** Once the reader of a connection has returned and its goroutines are gone: the requests are
    those Run finds in the input, and the replies to them (some have none) are what the peer got. *)
Theorem C42_quiescent : forall (W : Type) (srv : nat -> server W) h0 ins (w0 : W), (forall i, chunks_ok (fst (ins i))) ->
  forall c, steps tt (reply_step srv) (init h0 ins w0) c ->
  forall i e, k_rd (c_conns c i) = RDone e -> (forall t, In t (c_tasks c) -> tk_conn t <> i) ->
  k_broken (c_conns c i) = false ->
  (exists N s' e', forall n, (N <= n)%nat ->
     run_loop n stream_conn (mkStream (fst (ins i)) (snd (ins i)) []) [] = Ret (s', k_reqs (c_conns c i), e')) /\
  Permutation (map fst (k_out (c_conns c i)) ++ k_quiet (c_conns c i)) (seq 0 (List.length (k_reqs (c_conns c i)))) /\
  received (c_conns c i) = List.concat (map snd (k_out (c_conns c i))).
Proof. exact @c42_quiescent. Qed.
Print Assumptions C42_quiescent.

(** No deadlock: while a goroutine exists or a reader has not returned, something can move. *)
Theorem C42_progress : forall (W L : Type) (linit : L) hstep h0 ins (w0 : W), (forall i, chunks_ok (fst (ins i))) ->
  forall c, steps linit hstep (init h0 ins w0) c -> c_crashed c = false ->
  (forall i own w l, exists r, hstep i own w l r /\
     match r with HMore _ o _ | HEnd _ o _ => List.length o = List.length own | HPanic => True end) ->
  c_tasks c <> [] \/ (exists i, forall e, k_rd (c_conns c i) <> RDone e) -> exists c', step linit hstep c c'.
Proof. exact @c42_progress. Qed.
Print Assumptions C42_progress.

(** Two requests on one connection answered in the opposite order, a third connection's one
    handled without a reply; afterwards nothing is left but three pooled buffers. *)
Example C42_ex : (forall i : nat, reach exk_srv exk_regs /\ regs_ok exk_regs) /\ (forall i, chunks_ok (fst (exk_ins i))) /\
  exists c, steps tt (reply_step (fun _ => exk_srv)) (init [] exk_ins 0) c /\
  c_tasks c = [] /\ k_rd (c_conns c 0) = RDone (RIo EOF) /\ k_rd (c_conns c 1) = RDone (RIo EOF) /\ c_world c = 2 /\
  k_reqs (c_conns c 0) = [exk_req 1 exk_a; exk_req 2 exk_b] /\ k_reqs (c_conns c 1) = [[x00; x00]] /\
  k_out (c_conns c 0) = [(1%nat, record (exk_rep 2 exk_b)); (0%nat, record (exk_rep 1 exk_a))] /\
  k_out (c_conns c 1) = [] /\ k_quiet (c_conns c 1) = [0%nat] /\ List.length (c_pool c) = 3%nat.
Proof. split; [intros _; exact exk_ok|]. split; [exact exk_ins_ok|exact c42_ex]. Qed.
