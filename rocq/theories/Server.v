(** Model of /repo/rfc1057/server.go (one request at a time; goroutines and the buffer
    pool are in Conc.v) and of the generated handler wrappers. *)
From Verif Require Import Bytes XdrLib Types Interp RpcTypes Io Client.
Open Scope string_scope.
Open Scope Z_scope.
Open Scope list_scope.

Section Server.
(** Everything user procedures can read and change. *)
Context {W : Type}.

(** server.go:32 ProcHandler: gets the reader positioned at the arguments, returns a result
    (nil = [None]) and an error.  External code: arbitrary, may panic or run forever.  The
    first argument is fuel for the codecs it runs. *)
Definition handler : Type := nat -> xst -> W -> outcome (W * option xdrable * option xerr).

(** server.go:34-36; a registered handler may itself be nil. *)
Definition procmap : Type := Z -> option (option handler).
Definition versmap : Type := Z -> option procmap.
Definition server : Type := Z -> option versmap.

Definition upd {A} (m : Z -> option A) (k : Z) (v : A) : Z -> option A :=
  fun k' => if k' =? k then Some v else m k'.

(** server.go:43-47 *)
Definition MakeServer : server := fun _ => None.

(** server.go:49-61.  Lines 50-53 create the version map if missing, 55-58 the procedure
    map, 60 stores; the updated inner maps are stored back because Go maps are references. *)
Definition Register (s : server) (prog vers proc : Z) (h : option handler) : server :=
  let vm : versmap := match s prog with Some vm => vm | None => fun _ => None end in
  let pm : procmap := match vm vers with Some pm => pm | None => fun _ => None end in
  upd s prog (upd vm vers (upd pm proc h)).

(** xdr/types.go:24-29 *)
Record registration : Type := mkReg { rg_prog : Z; rg_vers : Z; rg_proc : Z; rg_handler : option handler }.

(** server.go:63-67 *)
Definition RegisterMany (s : server) (regs : list registration) : server :=
  fold_left (fun s r => Register s (rg_prog r) (rg_vers r) (rg_proc r) (rg_handler r)) regs s.

Inductive serr : Type :=
| SXdr (e : xerr)          (* server.go:114,166,173 *)
| SNotCall (mtype : Z)     (* server.go:118 *)
| SIo (e : ioerr).         (* server.go:181 *)

(** server.go:121-156: the reply message, the result to append and the world afterwards. *)
Definition dispatch (n : nat) (srv : server) (w : W) (rd : xst) (req : val)
  : outcome (W * val * option xdrable) :=
  let res := zero_msg in
  let res := set_path ["Xid"] (VInt (get_int ["Xid"] req)) res in
  let res := set_path ["Body"; "Mtype"] (VInt REPLY) res in
  if negb (get_int ["Body"; "Cbody"; "Rpcvers"] req =? 2) then
    let res := set_path ["Body"; "Rbody"; "Stat"] (VInt MSG_DENIED) res in
    let res := set_path ["Body"; "Rbody"; "Rreply"; "Stat"] (VInt RPC_MISMATCH) res in
    Ret (w, res, None)
  else
    let res := set_path ["Body"; "Rbody"; "Stat"] (VInt MSG_ACCEPTED) res in
    let stat z := set_path ["Body"; "Rbody"; "Areply"; "Reply_data"; "Stat"] (VInt z) res in
    match srv (get_int ["Body"; "Cbody"; "Prog"] req) with
    | None => Ret (w, stat PROG_UNAVAIL, None)
    | Some vermap =>
        match vermap (get_int ["Body"; "Cbody"; "Vers"] req) with
        | None => Ret (w, stat PROG_MISMATCH, None)
        | Some procmap =>
            match procmap (get_int ["Body"; "Cbody"; "Proc"] req) with
            | None => Ret (w, stat PROC_UNAVAIL, None)
            | Some None => Panic
            | Some (Some h) =>
                'r <- h n rd w ;;
                match r with
                | (w', resdata, Some _) => Ret (w', stat GARBAGE_ARGS, resdata)
                | (w', resdata, None) => Ret (w', stat SUCCESS, resdata)
                end
            end
        end
    end.

(** server.go:107-178: the bytes to write, or the error returned before writing. *)
Definition make_reply (n : nat) (srv : server) (w : W) (buf : list byte)
  : outcome (W * (serr + list byte)) :=
  '(rd, req) <- xdr n rpc_env msg_t (MakeReader buf) zero_msg ;;
  match Error rd with
  | Some e => Ret (w, inl (SXdr e))
  | None =>
      if negb (get_int ["Body"; "Mtype"] req =? CALL)
      then Ret (w, inl (SNotCall (get_int ["Body"; "Mtype"] req)))
      else
        'd <- dispatch n srv w rd req ;;
        match d with (w', res, resdata) =>
        '(wr, _) <- xdr n rpc_env msg_t (MakeWriter (zeros 4)) res ;;
        match Error wr with
        | Some e => Ret (w', inl (SXdr e))
        | None =>
            'wr <- match resdata with
                   | None => Ret wr
                   | Some r => '(wr, _) <- xdr n (xv_env r) (xv_ty r) wr (xv_val r) ;; Ret wr
                   end ;;
            match Error wr with
            | Some e => Ret (w', inl (SXdr e))
            | None =>
                let wbuf := WriteBuf wr in
                Ret (w', inr (put_u32 (rec_mark (zlen wbuf - 4)) ++ skipn 4 wbuf))
            end
        end
        end
  end.

(** server.go:107-182 *)
Definition handleReqErr {S} (n : nat) (C : conn S) (srv : server) (s : S) (w : W) (buf : list byte)
  : outcome (S * W * option serr) :=
  'r <- make_reply n srv w buf ;;
  match r with
  | (w', inl e) => Ret (s, w', Some e)
  | (w', inr wbuf) =>
      let '(s', e) := c_write C s wbuf in
      Ret (s', w', option_map SIo e)
  end.

(** ** Generated handler wrappers: out.go:405-425, e.g. rfc1057/xdr.go:156-208.
    [user]: the user's method; arguments and results are absent for void. *)
Definition stub (E : env) (targ tres : option cty) (user : option val -> W -> outcome (W * option val))
  : handler := fun n args w =>
  'a <- match targ with
        | None => Ret (args, None)
        | Some t =>
            match zero n E t with
            | None => NoFuel
            | Some z => '(s, x) <- xdr n E t args z ;; Ret (s, Some x)
            end
        end ;;
  let '(args, x) := a in
  match targ, Error args with
  | Some _, Some e => Ret (w, None, Some e)
  | _, _ =>
      'r <- user x w ;;
      let '(w', y) := r in
      match tres, y with
      | None, _ => Ret (w', Some xv_void, None)
      | Some t, Some y => Ret (w', Some (mkXv E t y), None)
      | Some _, None => Panic (* excluded by Go's typing *)
      end
  end.

End Server.
Arguments handler W : clear implicits.
Arguments server W : clear implicits.
Arguments registration W : clear implicits.

(** ** The read loop of Run: server.go:75-95.  Returns the buffers handed to goroutines, in
    order, and the error it returns.  Replies are written by the goroutines. *)
Inductive runerr : Type := RIo (e : ioerr) | RFragments.

Fixpoint run_loop {S} (n : nat) (C : conn S) (s : S) (acc : list (list byte))
  : outcome (S * list (list byte) * runerr) :=
  match n with
  | O => NoFuel
  | Datatypes.S n' =>
      'r <- read_full n' C s 4 [] ;;
      match r with
      | (s1, _, Some e) => Ret (s1, acc, RIo e)
      | (s1, hdr, None) =>
          let hlen := get_u32 hdr in
          if Z.land hlen (2 ^ 31) =? 0 then Ret (s1, acc, RFragments)
          else
            'r2 <- read_full n' C s1 (Z.to_nat (Z.land hlen 2147483647)) [] ;;
            match r2 with
            | (s2, _, Some e) => Ret (s2, acc, RIo e)
            | (s2, buf, None) => run_loop n' C s2 (acc ++ [buf])
            end
      end
  end.
