(** Client programs: Go programs that dial, make clients, call and print, like example/client/main.go and
    example/server/main.go, run against servers over connections ([remote]) and, without any network, against
    the procedures themselves ([direct]). *)
From Verif Require Import Bytes XdrLib Types Interp Spec Runs RpcTypes RpcSpec Io Client CallSpec Server ServSpec E2E ReplyQ.
Open Scope string_scope.
Open Scope Z_scope.
Open Scope list_scope.

(** What a program does next.  Connections and clients are numbered in the order they are made. *)
Inductive cprog : Type :=
| PStop                                                              (* return from main *)
| PPanic                                                             (* panic(err), panic(fmt.Sprintf(..)) *)
| PPrint (v : val) (k : cprog)                                       (* fmt.Printf *)
| PDial (port : Z) (k : option nat -> cprog)                         (* net.Dial to this port; None: an error *)
| PMake (conn : nat) (prog vers : Z) (k : nat -> cprog)              (* rfc1057.MakeClient *)
| PCall (cl : nat) (q : callreq) (k : val -> option cerr -> cprog)   (* c.Call *)
| PClose (conn : nat) (k : cprog).                                   (* conn.Close *)

Inductive ending : Type := Stopped | Panicked.

Fixpoint set_nth {A} (i : nat) (a : A) (l : list A) : list A :=
  match l, i with
  | [], _ => []
  | _ :: l, O => a :: l
  | b :: l, S i => b :: set_nth i a l
  end.

Section Run.
Context {W : Type}.

(** The servers that listen, by port. *)
Definition listeners := Z -> option (server W).

(** ** Over the network *)
(** The servers' shared world, the connections (port and link; [None] when closed; the world in a link counts only while a
    call is under way on it), the clients (connection, Client), the values printed. *)
Record sys : Type := mkSys { y_w : W; y_conns : list (option (Z * link W)); y_clients : list (nat * client); y_out : list val }.

Definition new_link (w : W) : link W := mkLink [] 0 w (mkStream [] EOF []).
Definition with_world (w : W) (s : link W) : link W := mkLink (lk_sent s) (lk_done s) w (lk_str s).

(** [ch1 i], [ch2 i]: how the network cuts the streams of connection [i]. *)
Inductive remote (n : nat) (ls : listeners) (ch1 ch2 : nat -> list byte -> list (list byte)) : cprog -> sys -> sys -> ending -> Prop :=
| R_stop y : remote n ls ch1 ch2 PStop y y Stopped
| R_panic y : remote n ls ch1 ch2 PPanic y y Panicked
| R_print v k y y' r : remote n ls ch1 ch2 k (mkSys (y_w y) (y_conns y) (y_clients y) (y_out y ++ [v])) y' r ->
    remote n ls ch1 ch2 (PPrint v k) y y' r
| R_dial_no port k y y' r : ls port = None -> remote n ls ch1 ch2 (k None) y y' r -> remote n ls ch1 ch2 (PDial port k) y y' r
| R_dial port k y y' r : ls port <> None ->
    remote n ls ch1 ch2 (k (Some (List.length (y_conns y))))
      (mkSys (y_w y) (y_conns y ++ [Some (port, new_link (y_w y))]) (y_clients y) (y_out y)) y' r ->
    remote n ls ch1 ch2 (PDial port k) y y' r
| R_make i prog vers k y y' r :
    remote n ls ch1 ch2 (k (List.length (y_clients y)))
      (mkSys (y_w y) (y_conns y) (y_clients y ++ [(i, MakeClient prog vers)]) (y_out y)) y' r ->
    remote n ls ch1 ch2 (PMake i prog vers k) y y' r
| R_call j q k y y' r i c port s srv c' s' v e : nth_error (y_clients y) j = Some (i, c) -> nth_error (y_conns y) i = Some (Some (port, s)) ->
    ls port = Some srv ->
    Calls (link_conn n (ch1 i) (ch2 i) srv) c (with_world (y_w y) s) q c' s' v e ->
    remote n ls ch1 ch2 (k v e)
      (mkSys (lk_w s') (set_nth i (Some (port, s')) (y_conns y)) (set_nth j (i, c') (y_clients y)) (y_out y)) y' r ->
    remote n ls ch1 ch2 (PCall j q k) y y' r
| R_close i k y y' r : remote n ls ch1 ch2 k (mkSys (y_w y) (set_nth i None (y_conns y)) (y_clients y) (y_out y)) y' r ->
    remote n ls ch1 ch2 (PClose i k) y y' r.

(** ** Without a network *)
(** The world, the port at the other end of each open connection, the clients, the values printed. *)
Record dsys : Type := mkDsys { d_w : W; d_conns : list (option Z); d_clients : list (nat * client); d_out : list val }.

(** The caller's variable and error: the answer in canonical form (nil slices and absent data have one representation), or
    the reason of the refusal. *)
Definition reports (q : callreq) (f : fate) (v : val) (e : option cerr) : Prop :=
  match f with
  | Answered a => e = None /\
      match an_ty a with
      | None => v = VStruct []
      | Some t => exists y, an_val a = Some y /\ same (an_env a) t y v /\ canon (an_env a) t v /\ has_ty (an_env a) t v
      end
  | TurnedDown stat => v = xv_val (rq_resp q) /\ e = Some (CAccept stat)
  end.

(** Executed directly, [p] comes to an end in a state with [Q], whatever representations the answers have:
    a call applies the procedure registered at the other end of the client's connection ([regs port]) to the arguments. *)
Fixpoint direct (ls : listeners) (regs : Z -> list (registration W)) (p : cprog) (d : dsys) (Q : dsys -> ending -> Prop) : Prop :=
  match p with
  | PStop => Q d Stopped
  | PPanic => Q d Panicked
  | PPrint v k => direct ls regs k (mkDsys (d_w d) (d_conns d) (d_clients d) (d_out d ++ [v])) Q
  | PDial port k =>
      match ls port with
      | None => direct ls regs (k None) d Q
      | Some _ => direct ls regs (k (Some (List.length (d_conns d)))) (mkDsys (d_w d) (d_conns d ++ [Some port]) (d_clients d) (d_out d)) Q
      end
  | PMake i prog vers k => u32 prog /\ u32 vers /\
      direct ls regs (k (List.length (d_clients d))) (mkDsys (d_w d) (d_conns d) (d_clients d ++ [(i, MakeClient prog vers)]) (d_out d)) Q
  | PCall j q k => exists i c port w' f, nth_error (d_clients d) j = Some (i, c) /\ nth_error (d_conns d) i = Some (Some port) /\
      req_ok q /\ encodable q /\ fresh (xv_env (rq_resp q)) (xv_ty (rq_resp q)) (xv_val (rq_resp q)) /\
      meets (regs port) (next_xid c) (cl_prog c) (cl_vers c) q (d_w d) w' f /\
      forall v e, reports q f v e -> direct ls regs (k v e) (mkDsys w' (d_conns d) (set_nth j (i, incr_xid c) (d_clients d)) (d_out d)) Q
  | PClose i k => direct ls regs k (mkDsys (d_w d) (set_nth i None (d_conns d)) (d_clients d) (d_out d)) Q
  end.

(** The listeners are these servers. *)
Definition listening (ls : listeners) (regs : Z -> list (registration W)) : Prop :=
  forall port srv, ls port = Some srv -> reach srv (regs port) /\ regs_ok (regs port).

(** Before anything has been dialled. *)
Definition sys0 (w : W) : sys := mkSys w [] [] [].
Definition dsys0 (w : W) : dsys := mkDsys w [] [] [].
(** The end of a run over the network, seen without it. *)
Definition forget (y : sys) : dsys := mkDsys (y_w y) (map (option_map fst) (y_conns y)) (y_clients y) (y_out y).
End Run.
Arguments listeners W : clear implicits.
Arguments sys W : clear implicits.
Arguments dsys W : clear implicits.
