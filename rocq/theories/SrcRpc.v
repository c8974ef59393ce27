(** Package rfc1057 as text: its message values in memory, and what its functions use from elsewhere. *)
From Verif Require Import GoLex SrcAst SrcProg.
From Verif Require Import Bytes XdrLib Types Interp Heap HeapP RpcTypes Io Client Server SrcSem SrcLib SrcLibC.
Open Scope string_scope.
Open Scope Z_scope.
Open Scope list_scope.

(** ** The package *)
(** /repo/rfc1057/{types,client,server}.go; the generated methods of xdr.go are elsewhere ([ext]). *)
Definition rpc_pkg : list gd := f_decls rtypes_prog ++ f_decls client_prog ++ f_decls server_prog.
Definition rpc_pkgs : list string := ["binary"; "fmt"; "io"; "os"; "sync"; "xdr"].

Fixpoint find_type (P : list gd) (x : string) : option gx :=
  match P with
  | [] => None
  | DType y t :: P => if String.eqb y x then Some t else find_type P x
  | _ :: P => find_type P x
  end.
(** The zero value of a type, called [x] if it has a name.  A [n]byte field is kept as its bytes.  Types declared elsewhere are
    interfaces here: nil. *)
Fixpoint zero_of (n : nat) (P : list gd) (x : string) (t : gx) : gv :=
  match n with
  | O => WNil
  | S n =>
      match t with
      | EId y =>
          if GoLex.mem y num_types then WNum (if String.eqb x "" then y else x) 0
          else match find_type P y with Some t => zero_of n P y t | None => WNil end
      | TStruct fs => WStruct x (map (fun f : string * gx => (fst f, zero_of n P "" (snd f))) fs)
      | TSlice _ => WSl None
      | TArr (EInt k) _ => WStr (zeros (Z.to_nat (int_lit k)))
      | _ => WNil
      end
  end.
Definition rpc_structs (x : string) : option gv :=
  match find_type rpc_pkg x with Some (TStruct _) => Some (zero_of 20 rpc_pkg "" (EId x)) | _ => None end.
(** Package-level constants and variables: types.go; server.go:14 reqBufPool; os.Stderr. *)
Fixpoint const_of (P : list gd) (x : string) : option gv :=
  match P with
  | [] => None
  | DConst y (EId t) (EInt k) :: P => if String.eqb y x then Some (WNum t (int_lit k)) else const_of P x
  | _ :: P => const_of P x
  end.
Definition pool : nat := 1.
Definition stderr : nat := 2.
Definition rpc_consts (x : string) : option gv :=
  if String.eqb x "reqBufPool" then Some (WObj pool) else if String.eqb x "os.Stderr" then Some (WObj stderr) else const_of rpc_pkg x.

(** ** Rpc_msg values: types.go:45-84 *)
Definition gauth (f : Z) (b : option slice) : gv := WStruct "Opaque_auth" [("Flavor", WNum "Auth_flavor" f); ("Body", WSl b)].
Definition gmismatch (lo hi : Z) : gv := WStruct "" [("Low", WNum "uint32" lo); ("High", WNum "uint32" hi)].
Definition gcbody (rv pg vs pc : Z) (cred verf : gv) : gv :=
  WStruct "Call_body" [("Rpcvers", WNum "uint32" rv); ("Prog", WNum "uint32" pg); ("Vers", WNum "uint32" vs); ("Proc", WNum "uint32" pc);
                       ("Cred", cred); ("Verf", verf)].
Definition gareply (verf : gv) (st : Z) (bs : list byte) (mm : gv) : gv :=
  WStruct "Accepted_reply" [("Verf", verf);
    ("Reply_data", WStruct "" [("Stat", WNum "Accept_stat" st); ("Results", WStr bs); ("Mismatch_info", mm)])].
Definition grreply (st : Z) (mm : gv) (au : Z) : gv :=
  WStruct "Rejected_reply" [("Stat", WNum "Reject_stat" st); ("Mismatch_info", mm); ("Astat", WNum "Auth_stat" au)].
Definition grbody (st : Z) (ar rr : gv) : gv :=
  WStruct "Reply_body" [("Stat", WNum "Reply_stat" st); ("Areply", ar); ("Rreply", rr)].
Definition gmsg (xid mt : Z) (cb rb : gv) : gv :=
  WStruct "Rpc_msg" [("Xid", WNum "uint32" xid); ("Body", WStruct "" [("Mtype", WNum "Msg_type" mt); ("Cbody", cb); ("Rbody", rb)])].
Definition zmsg : gv :=
  gmsg 0 0 (gcbody 0 0 0 0 (gauth 0 None) (gauth 0 None))
    (grbody 0 (gareply (gauth 0 None) 0 [] (gmismatch 0 0)) (grreply 0 (gmismatch 0 0) 0)).
Lemma zmsg_ok : rpc_structs "Rpc_msg" = Some zmsg.
Proof. reflexivity. Qed.

(** Such a value as Heap.v has it: without the names of the types. *)
Fixpoint to_h (v : gv) : hval :=
  match v with
  | WBool b => HBool b
  | WNum _ z => HInt z
  | WStr bs => HArr bs
  | WSl o => HBytes o
  | WStruct _ fs => HStruct (map (fun f : string * gv => (fst f, to_h (snd f))) fs)
  | _ => HStruct []
  end.
Lemma zmsg_zero h : deref h (to_h zmsg) = zero_msg.
Proof. reflexivity. Qed.
(** The type of a value: the value with its numbers and bytes taken out. *)
Fixpoint gtype (v : gv) : gv :=
  match v with
  | WBool _ => WBool false
  | WNum t _ => WNum t 0
  | WStr _ => WStr []
  | WSl _ => WSl None
  | WStruct t fs => WStruct t (map (fun f : string * gv => (fst f, gtype (snd f))) fs)
  | v => v
  end.

(** ** The world *)
Inductive event : Type :=
| EGo (f : list byte) (args : list gv) (buf : list byte)     (* go f(args), the last of which had these bytes *)
| EPrint (args : list gv)                                    (* fmt.Fprintf *)
| EPut (v : gv).                                             (* reqBufPool.Put *)
(** The connection; the values behind xdr.Xdrable interfaces, with their types; what the user's procedures work on; what was done. *)
Record world (S U : Type) : Type := mkWorld { w_conn : S; w_objs : list (env * cty * hval); w_user : U; w_log : list event }.
Arguments mkWorld {S U}. Arguments w_conn {S U}. Arguments w_objs {S U}. Arguments w_user {S U}. Arguments w_log {S U}.

(** Results related by [R]; or both panic; or both run out of the fuel of the codecs and of io.ReadFull. *)
Definition agrees {A B} (R : A -> B -> Prop) (a : outcome A) (b : outcome B) : Prop :=
  match a, b with
  | Ret x, Ret y => R x y
  | Panic, Panic => True
  | NoFuel, NoFuel => True
  | _, _ => False
  end.

(** Errors as interface values. *)
Definition vio (e : option ioerr) : gv :=
  match e with
  | None => WNil
  | Some EOF => WErr (str_bytes "EOF") []
  | Some ErrUnexpectedEOF => WErr (str_bytes "unexpected EOF") []
  | Some (EIo s) => WErr (str_bytes s) []
  end.
Definition vcerr (e : option cerr) : gv :=
  match e with
  | None => WNil
  | Some (CXdr e) => verr (Some e)
  | Some (CIo e) => vio (Some e)
  | Some CFragments => WErr (str_bytes "fragments not supported") []
  | Some (CXidMismatch got want) => WErr (str_bytes "xid mismatch: %d != %d") [WNum "uint32" got; WNum "uint32" want]
  | Some (CNotReply m) => WErr (str_bytes "expected REPLY, got %d") [WNum "Msg_type" m]
  | Some (CDenied s) => WErr (str_bytes "MSG_DENIED stat %d") [WNum "Reject_stat" s]
  | Some (CAccept s) => WErr (str_bytes "accept_stat %d") [WNum "Accept_stat" s]
  end.
Definition vserr (e : option serr) : gv :=
  match e with
  | None => WNil
  | Some (SXdr e) => verr (Some e)
  | Some (SNotCall m) => WErr (str_bytes "request mtype %d != CALL") [WNum "Msg_type" m]
  | Some (SIo e) => vio (Some e)
  end.
Definition vrerr (e : runerr) : gv :=
  match e with RIo e => vio (Some e) | RFragments => WErr (str_bytes "fragments not supported") [] end.

(** [h'] has the blocks of [h], each as long as before. *)
Definition anywhere (b i : nat) : Prop := True.
Definition valid_in (h : heap) (v : hval) : Prop := Forall (svalid h) (hslices v).

Section World.
Context {S U : Type}.
Notation mem := (mem (world S U)).
Notation ext_t := (string -> list gv -> mem -> outcome (mem * list gv)).
Variable grow : nat -> nat -> nat.
Variable N : nat.                                   (* fuel of the codecs and of io.ReadFull *)
Variable C : conn S.
Variable rw : nat.                                  (* the number of the connection *)
Variable hs : nat -> handler U.                     (* the functions registered as handlers, by number *)

Definition set_conn (w : world S U) (s : S) : world S U := mkWorld s (w_objs w) (w_user w) (w_log w).
Definition set_obj (w : world S U) (i : nat) (o : env * cty * hval) : world S U := mkWorld (w_conn w) (set_nth (w_objs w) i o) (w_user w) (w_log w).
Definition add_log (w : world S U) (e : event) : world S U := mkWorld (w_conn w) (w_objs w) (w_user w) (w_log w ++ [e]).

(** A function of package xdr, as its text says. *)
Definition xdr_text (f : string) (args : list gv) (m : mem) : outcome (mem * list gv) :=
  run grow xdr_pkgs no_consts xdr_structs xdr_pkg no_ext 1 f args m.

(** What is assumed of the functions that rfc1057/{client,server}.go use from elsewhere. *)
Record meets (ext : ext_t) : Prop := {
  m_writer : forall args m, ext "xdr.MakeWriter" args m = xdr_text "MakeWriter" args m;
  m_reader : forall args m, ext "xdr.MakeReader" args m = xdr_text "MakeReader" args m;
  m_error : forall args m, ext "XdrState.Error" args m = xdr_text "XdrState.Error" args m;
  m_buf : forall args m, ext "XdrState.WriteBuf" args m = xdr_text "XdrState.WriteBuf" args m;
  (* xdr.go: the generated method of Rpc_msg does what Interp.v says *)
  m_msg : forall h cs w p q s g,
    nth_error cs p = Some (vstate s) -> nth_error cs q = Some g -> gtype g = gtype zmsg -> gvalid h (h_buf s) -> safe h s (to_h g) ->
    agrees (fun sv r => exists h' s' g', r = (mkMem h' (set_nth (set_nth cs p (vstate s')) q g') w, []) /\
        habs h' s' = fst sv /\ deref h' (to_h g') = snd sv /\ gtype g' = gtype g /\ tstep none h s h' s')
      (xdr N rpc_env msg_t (habs h s) (deref h (to_h g))) (ext "Rpc_msg.Xdr" [WPtr q; WPtr p] (mkMem h cs w));
  (* the Xdr method of the type of a value behind an interface *)
  m_xdr : forall h cs w p s i E t v,
    nth_error cs p = Some (vstate s) -> nth_error (w_objs w) i = Some (E, t, v) -> gvalid h (h_buf s) -> safe h s v ->
    agrees (fun sv r => exists h' s' v', r = (mkMem h' (set_nth cs p (vstate s')) (set_obj w i (E, t, v')), []) /\
        habs h' s' = fst sv /\ deref h' v' = snd sv /\ tstep none h s h' s')
      (xdr N E t (habs h s) (deref h v)) (ext ".Xdr" [WObj i; WPtr p] (mkMem h cs w));
  (* the connection *)
  m_write : forall h cs w o, gvalid h o ->
    exists k, ext ".Write" [WObj rw; WSl o] (mkMem h cs w) =
      Ret (mkMem h cs (set_conn w (fst (c_write C (w_conn w) (gread h o)))), [WNum "int" k; vio (snd (c_write C (w_conn w) (gread h o)))]);
  m_read : forall h cs w o, gvalid h o ->
    agrees (fun x r => exists h' k, r = (mkMem h' cs (set_conn w (fst (fst x))), [WNum "int" k; vio (snd x)]) /\
        differs_at (inside o) h h' /\ (snd x = None -> gread h' o = snd (fst x)))
      (read_full N C (w_conn w) (glen o) []) (ext "io.ReadFull" [WObj rw; WSl o] (mkMem h cs w));
  (* a handler: may do anything to memory that the server cannot see, and returns a value that lies there *)
  m_handler : forall h cs w p s k, nth_error cs p = Some (vstate s) -> gvalid h (h_buf s) ->
    agrees (fun x r => exists h' cs' w' v e, r = (mkMem h' cs' w', [v; e]) /\
        w_user w' = fst (fst x) /\ w_conn w' = w_conn w /\ w_log w' = w_log w /\
        differs_at anywhere h h' /\
        (forall q, q <> p -> (q < List.length cs)%nat -> nth_error cs' q = nth_error cs q) /\
        match snd (fst x) with
        | None => v = WNil
        | Some y => exists i hv, v = WObj i /\ nth_error (w_objs w') i = Some (xv_env y, xv_ty y, hv) /\ valid_in h' hv /\ deref h' hv = xv_val y
        end /\
        match snd x with None => e = WNil | Some _ => exists f a, e = WErr f a end)
      (hs k N (habs h s) (w_user w)) (ext "()" [WObj k; WPtr p] (mkMem h cs w));
  m_nil : forall v m, ext "()" [WNil; v] m = Panic;
  (* goroutines and the pool: at these points other goroutines may have changed bytes *)
  m_go : forall h cs w f v o, gvalid h o ->
    exists h' cs', ext "go" [WStr f; v; WSl o] (mkMem h cs w) = Ret (mkMem h' cs' (add_log w (EGo f [v; WSl o] (gread h o))), []) /\
      differs_at anywhere h h' /\ (forall q, (q < List.length cs)%nat -> nth_error cs' q = nth_error cs q);
  m_get : forall h cs w,
    exists h' v, ext ".Get" [WObj pool] (mkMem h cs w) = Ret (mkMem h' cs w, [v]) /\ differs_at anywhere h h' /\
      (v = WNil \/ exists s, v = WSl (Some s) /\ svalid h' s);
  m_put : forall m v, ext ".Put" [WObj pool; v] m = Ret (mkMem (m_heap m) (m_cells m) (add_log (m_world m) (EPut v)), []);
  m_print : forall m args, exists k, ext "fmt.Fprintf" args m = Ret (mkMem (m_heap m) (m_cells m) (add_log (m_world m) (EPrint args)), [WNum "int" k; WNil])
}.

(** Function [f] of package rfc1057. *)
Definition rpc_run (ext : ext_t) (n : nat) (f : string) (args : list gv) (m : mem) : outcome (mem * list gv) :=
  run grow rpc_pkgs rpc_consts rpc_structs rpc_pkg ext n f args m.
End World.
