(** The server as a concurrent program: /repo/rfc1057/server.go:13-30 (the buffer pool) and
    69-105 (Run, handleReq) with goroutines.  One transition = one atomic action of one
    goroutine; every interleaving is a path.  Memory is Heap.v's.

    Trusted reading of Go's library: sync.Pool.Get removes and returns some stored item or
    returns nil, items may vanish at any time; Write on a connection is one indivisible action
    (true of net.Conn), which delivers everything and returns nil, or delivers a prefix and
    returns an error, after which the connection delivers nothing more; a panic ends the
    process.  What the peer sends is fixed beforehand, cut into arbitrary chunks; since the
    chunks are arbitrary this covers peers that react to replies.  Connections are numbered;
    unused ones have no input.  Printing to os.Stderr (server.go:103) is left out. *)
From Verif Require Import Bytes XdrLib Types Interp RpcTypes Io Client Server Heap.
Open Scope string_scope.
Open Scope Z_scope.
Open Scope list_scope.

(** Store [bs] into slice [s] from index [k]. *)
Definition hwrite (h : heap) (s : slice) (k : nat) (bs : list byte) : heap :=
  hset h (sl_blk s) (poke (block h (sl_blk s)) (sl_off s + k) bs).

(** server.go:16-26 getReqBuf, for the pool contents [p], memory [h] and length [n]. *)
Inductive get_buf (p : list slice) (h : heap) (n : nat) : list slice -> heap -> slice -> Prop :=
| G_hit p1 b p2 : p = p1 ++ b :: p2 -> (n <= sl_cap b)%nat ->
    get_buf p h n (p1 ++ p2) h (mkSl (sl_blk b) (sl_off b) n (sl_cap b))
| G_small p1 b p2 : p = p1 ++ b :: p2 -> (sl_cap b < n)%nat ->
    get_buf p h n (p1 ++ p2) (h ++ [zeros n]) (mkSl (List.length h) 0 n n)
| G_nil : get_buf p h n p (h ++ [zeros n]) (mkSl (List.length h) 0 n n).

(** io.ReadFull's error after [acc] was read (as in Io.read_full). *)
Definition short_err (acc : list byte) (e : ioerr) : ioerr :=
  match e, acc with EOF, _ :: _ => ErrUnexpectedEOF | _, _ => e end.

(** The goroutine in Run: reading a header (server.go:76-87), reading a body into its buffer
    (89-92), or returned.  [acc] of [RBody] is what was read so far: not in the program, kept
    for stating facts. *)
Inductive reader : Type :=
| RHdr (acc : list byte)
| RBody (s : slice) (acc : list byte)
| RDone (e : runerr).

(** What a connection's peer sees and what happened on it.  [k_in], [k_rd]: input and reader.
    [k_out]: records written, with the number of the request each answers; [k_part]: prefix
    delivered by a failed Write; [k_broken]: a Write has failed.  For stating facts: [k_reqs]
    the requests handed to goroutines, [k_quiet] numbers of requests whose handling ended
    without a Write, [k_fail] of those whose Write failed. *)
Record kconn : Type := mkK {
  k_in : stream; k_rd : reader; k_out : list (nat * list byte); k_part : list byte; k_broken : bool;
  k_reqs : list (list byte); k_quiet : list nat; k_fail : list nat }.

Section Conc.
(** What handleReqErr does before its Write (server.go:107-178), including the user's
    procedure, as atomic actions that see the current bytes of the request's buffer and the
    shared world [W] and may change both; [L] is the local state between actions.
    [hstep i own w l r]: on connection [i]. *)
Context {W L : Type}.
Inductive hresult : Type :=
| HPanic
| HMore (w : W) (own : list byte) (l : L)
| HEnd (w : W) (own : list byte) (o : option (list byte)).  (* the record to write, if any *)
Variable linit : L.
Variable hstep : nat -> list byte -> W -> L -> hresult -> Prop.

(** A goroutine of handleReq: before its Write, about to Write, about to putReqBuf. *)
Inductive phase : Type := TRun (l : L) | TWrite (rec : list byte) | TPut.
(** [tk_conn], [tk_buf], [tk_ph]: connection, argument of handleReq, progress.  For stating
    facts: [tk_id] the request's number on its connection, [tk_own] what the goroutine itself
    last left in the buffer (at first the request). *)
Record task : Type := mkT { tk_conn : nat; tk_id : nat; tk_buf : slice; tk_own : list byte; tk_ph : phase }.

(** One action of a handler, for stating facts. *)
Record event : Type := mkEv { ev_conn : nat; ev_id : nat; ev_world : W; ev_res : hresult }.

Record cfg : Type := mkC {
  c_heap : heap; c_pool : list slice; c_conns : nat -> kconn; c_tasks : list task;
  c_world : W; c_crashed : bool; c_hist : list event }.

(** [g] is [f] with the entry at [i] changed to [c]. *)
Definition updk (f : nat -> kconn) (i : nat) (c : kconn) : nat -> kconn :=
  fun j => if Nat.eqb j i then c else f j.

Definition with_rd (k : kconn) (s : stream) (r : reader) : kconn :=
  mkK s r (k_out k) (k_part k) (k_broken k) (k_reqs k) (k_quiet k) (k_fail k).

Inductive step : cfg -> cfg -> Prop :=
(** *** Run: server.go:75-95, on connection [i] *)
(* 77: a Read of the header *)
| S_hdr h p f ts w hi i acc s d : k_rd (f i) = RHdr acc -> (List.length acc < 4)%nat ->
    stream_read (k_in (f i)) (4 - List.length acc) = (s, d, None) ->
    step (mkC h p f ts w false hi) (mkC h p (updk f i (with_rd (f i) s (RHdr (acc ++ d)))) ts w false hi)
(* 78-80 *)
| S_hdr_err h p f ts w hi i acc s d e : k_rd (f i) = RHdr acc -> (List.length acc < 4)%nat ->
    stream_read (k_in (f i)) (4 - List.length acc) = (s, d, Some e) ->
    step (mkC h p f ts w false hi)
         (mkC h p (updk f i (with_rd (f i) s (RDone (RIo (short_err (acc ++ d) e))))) ts w false hi)
(* 82-85 *)
| S_frag h p f ts w hi i acc : k_rd (f i) = RHdr acc -> List.length acc = 4%nat ->
    Z.land (get_u32 acc) (2 ^ 31) = 0 ->
    step (mkC h p f ts w false hi)
         (mkC h p (updk f i (with_rd (f i) (k_in (f i)) (RDone RFragments))) ts w false hi)
(* 87-88 *)
| S_get h p f ts w hi i acc p' h' b : k_rd (f i) = RHdr acc -> List.length acc = 4%nat ->
    Z.land (get_u32 acc) (2 ^ 31) <> 0 ->
    get_buf p h (Z.to_nat (Z.land (get_u32 acc) 2147483647)) p' h' b ->
    step (mkC h p f ts w false hi)
         (mkC h' p' (updk f i (with_rd (f i) (k_in (f i)) (RBody b []))) ts w false hi)
(* 89: a Read of the body *)
| S_body h p f ts w hi i b acc s d : k_rd (f i) = RBody b acc -> (List.length acc < sl_len b)%nat ->
    stream_read (k_in (f i)) (sl_len b - List.length acc) = (s, d, None) ->
    step (mkC h p f ts w false hi)
         (mkC (hwrite h b (List.length acc) d) p (updk f i (with_rd (f i) s (RBody b (acc ++ d)))) ts w false hi)
(* 90-92 *)
| S_body_err h p f ts w hi i b acc s d e : k_rd (f i) = RBody b acc -> (List.length acc < sl_len b)%nat ->
    stream_read (k_in (f i)) (sl_len b - List.length acc) = (s, d, Some e) ->
    step (mkC h p f ts w false hi)
         (mkC (hwrite h b (List.length acc) d) p
              (updk f i (with_rd (f i) s (RDone (RIo (short_err (acc ++ d) e))))) ts w false hi)
(* 94 *)
| S_go h p f ts w hi i b acc : k_rd (f i) = RBody b acc -> List.length acc = sl_len b ->
    step (mkC h p f ts w false hi)
         (mkC h p
              (updk f i (mkK (k_in (f i)) (RHdr []) (k_out (f i)) (k_part (f i)) (k_broken (f i))
                             (k_reqs (f i) ++ [acc]) (k_quiet (f i)) (k_fail (f i))))
              (ts ++ [mkT i (List.length (k_reqs (f i))) b acc (TRun linit)]) w false hi)
(** *** handleReq: server.go:98-105 and 107-182 *)
(* 107-178: some action, which sees the memory of its buffer *)
| S_more h p f t1 i k b o l t2 w hi w' o' l' :
    hstep i (sread h b) w l (HMore w' o' l') -> List.length o' = sl_len b ->
    step (mkC h p f (t1 ++ mkT i k b o (TRun l) :: t2) w false hi)
         (mkC (hwrite h b 0 o') p f (t1 ++ mkT i k b o' (TRun l') :: t2) w' false
              (hi ++ [mkEv i k w (HMore w' o' l')]))
(* ... the last one, with a record to write *)
| S_end h p f t1 i k b o l t2 w hi w' o' r :
    hstep i (sread h b) w l (HEnd w' o' (Some r)) -> List.length o' = sl_len b ->
    step (mkC h p f (t1 ++ mkT i k b o (TRun l) :: t2) w false hi)
         (mkC (hwrite h b 0 o') p f (t1 ++ mkT i k b o' (TWrite r) :: t2) w' false
              (hi ++ [mkEv i k w (HEnd w' o' (Some r))]))
(* ... or an error returned before the Write *)
| S_quiet h p f t1 i k b o l t2 w hi w' o' :
    hstep i (sread h b) w l (HEnd w' o' None) -> List.length o' = sl_len b ->
    step (mkC h p f (t1 ++ mkT i k b o (TRun l) :: t2) w false hi)
         (mkC (hwrite h b 0 o') p
              (updk f i (mkK (k_in (f i)) (k_rd (f i)) (k_out (f i)) (k_part (f i)) (k_broken (f i))
                             (k_reqs (f i)) (k_quiet (f i) ++ [k]) (k_fail (f i))))
              (t1 ++ mkT i k b o' TPut :: t2) w' false (hi ++ [mkEv i k w (HEnd w' o' None)]))
(* ... or a panic: the process ends (not recorded in the history) *)
| S_panic h p f t1 i k b o l t2 w hi :
    hstep i (sread h b) w l HPanic ->
    step (mkC h p f (t1 ++ mkT i k b o (TRun l) :: t2) w false hi)
         (mkC h p f (t1 ++ mkT i k b o (TRun l) :: t2) w true hi)
(* 180: Write succeeds *)
| S_write h p f t1 i k b o r t2 w hi : k_broken (f i) = false ->
    step (mkC h p f (t1 ++ mkT i k b o (TWrite r) :: t2) w false hi)
         (mkC h p
              (updk f i (mkK (k_in (f i)) (k_rd (f i)) (k_out (f i) ++ [(k, r)]) (k_part (f i)) false
                             (k_reqs (f i)) (k_quiet (f i)) (k_fail (f i))))
              (t1 ++ mkT i k b o TPut :: t2) w false hi)
(* 180: Write fails *)
| S_write_err h p f t1 i k b o r t2 w hi d : (exists x, r = d ++ x) -> (k_broken (f i) = true -> d = []) ->
    step (mkC h p f (t1 ++ mkT i k b o (TWrite r) :: t2) w false hi)
         (mkC h p
              (updk f i (mkK (k_in (f i)) (k_rd (f i)) (k_out (f i)) (k_part (f i) ++ d) true
                             (k_reqs (f i)) (k_quiet (f i)) (k_fail (f i) ++ [k])))
              (t1 ++ mkT i k b o TPut :: t2) w false hi)
(* 28-30, 99: the deferred putReqBuf *)
| S_put h p f t1 i k b o t2 w hi :
    step (mkC h p f (t1 ++ mkT i k b o TPut :: t2) w false hi) (mkC h (b :: p) f (t1 ++ t2) w false hi)
(** *** The pool loses an item *)
| S_drop h p1 b p2 f ts w hi : step (mkC h (p1 ++ b :: p2) f ts w false hi) (mkC h (p1 ++ p2) f ts w false hi).

Inductive steps : cfg -> cfg -> Prop :=
| steps_refl c : steps c c
| steps_snoc c1 c2 c3 : steps c1 c2 -> step c2 c3 -> steps c1 c3.

(** Start: nothing in the pool, connection [i] about to deliver the chunks [ins i]. *)
Definition kinit (cs : list (list byte)) (en : ioerr) : kconn :=
  mkK (mkStream cs en []) (RHdr []) [] [] false [] [] [].
Definition init (h : heap) (ins : nat -> list (list byte) * ioerr) (w : W) : cfg :=
  mkC h [] (fun i => kinit (fst (ins i)) (snd (ins i))) [] w false [].

(** What the peer of a connection has received. *)
Definition received (k : kconn) : list byte := List.concat (map snd (k_out k)) ++ k_part k.

End Conc.
Arguments hresult W L : clear implicits.
Arguments task L : clear implicits.
Arguments event W L : clear implicits.
Arguments cfg W L : clear implicits.

(** ** handleReqErr of Server.v as one action, which does not change the buffer *)
Inductive reply_step {W} (srv : nat -> server W) (i : nat) (own : list byte) (w : W) (l : unit) : hresult W unit -> Prop :=
| RS_reply n w' rec : make_reply n (srv i) w own = Ret (w', inr rec) -> reply_step srv i own w l (HEnd w' own (Some rec))
| RS_err n w' e : make_reply n (srv i) w own = Ret (w', inl e) -> reply_step srv i own w l (HEnd w' own None)
| RS_panic n : make_reply n (srv i) w own = Panic -> reply_step srv i own w l HPanic.
