(** What the statements of the example programs (/repo/example/client/main.go, /repo/example/server/main.go) do: an interpreter
    of the trees of SrcAst.v that yields the tree of what the program asks of the outside and does with each answer.
    It is written with continuations: a panic goes on with the deferred calls and then with the caller's.
    Simplifications: static types are not checked (a program outside this part of Go is stuck); [:=] always declares; addresses of
    variables are taken only as arguments of Call and EncodeBuf; fields are read from values of the declared types. *)
From Verif Require Import Bytes XdrLib Types Interp Spec Runs RpcTypes RpcSpec Io Client CallSpec Server ServSpec E2E GenCommitted Prog ExProg.
From Verif Require Import GoLex SrcAst SrcSem.
Open Scope string_scope.
Open Scope Z_scope.
Open Scope list_scope.

(** ** Values *)
Inductive ev : Type :=
| VV (t : string) (v : val)                       (* a value of a type of the packages, or of a basic type *)
| VK (z : Z)                                      (* an integer constant without type *)
| VS (s : list byte)                              (* a string *)
| VFmt (f : list byte) (args : list ev)           (* fmt.Sprintf(f, args) *)
| VE (b : bool)                                   (* an error: whether it is not nil *)
| VNil
| VConn (i : nat)                                 (* net.Conn *)
| VClient (i : nat)                               (* *rfc1057.Client *)
| VListener (port : Z)                            (* net.Listener *)
| VTcp (port : Z)                                 (* its address *)
| VServer                                         (* *rfc1057.Server, without procedures *)
| VAt (x : string)                                (* &x *)
| VTup (vs : list ev).                            (* several results *)

(** ** What a program asks of the outside *)
Inductive xp : Type :=
| XEnd                                                                       (* main returns *)
| XPanic                                                                     (* the program panics, all deferred calls made *)
| XStuck                                                                     (* outside this part of Go, or out of fuel *)
| XPrint (f : list byte) (vs : list ev) (k : xp)                             (* fmt.Printf *)
| XDial (net : list byte) (a : ev) (k : option nat -> xp)                    (* net.Dial; None: an error *)
| XMake (conn : nat) (prog vers : Z) (k : nat -> xp)                         (* rfc1057.MakeClient *)
| XCall (cl : nat) (q : callreq) (k : val -> option cerr -> xp)              (* c.Call *)
| XClose (conn : nat) (k : xp)                                               (* conn.Close *)
| XListen (net a : list byte) (k : option Z -> xp)                           (* net.Listen: the port *)
| XAccept (port : Z) (k : option nat -> xp)                                  (* listener.Accept *)
| XServe (conn : nat) (k : xp).                                              (* go srv.Run(conn) *)

Definition env1 : Type := list (string * ev).
Definition pkgs1 : list string := ["fmt"; "net"; "rfc1057"; "rfc1813"; "xdr"].

Fixpoint strip (p s : string) : option string :=
  match p, s with
  | EmptyString, _ => Some s
  | String a p, String b s => if Ascii.eqb a b then strip p s else None
  | _, _ => None
  end.

Section Sem.
(** The constants of rfc1057/types.go and rfc1813/types.go. *)
Variables (K1057 K1813 : list (string * Z)).

Definition const_of (p : string) : option ev :=
  match strip "rfc1057." p, strip "rfc1813." p with
  | Some x, _ => option_map VK (assoc x K1057)
  | _, Some x => option_map VK (assoc x K1813)
  | _, _ => None
  end.
(** A type of the packages, with its zero value; xdr.Uint32 and xdr.Bool (xdr/types.go) have the methods of rfc1057.Uint32 and
    rfc1057.Xbool. *)
Definition type_of (t : string) : option xdrable :=
  let of E (var : string -> xdrable) x := match lookup x E with Some _ => Some (var x) | None => None end in
  if String.eqb t "xdr.Uint32" then Some (var1057 "Uint32")
  else if String.eqb t "xdr.Bool" then Some (var1057 "Xbool")
  else match strip "rfc1057." t, strip "rfc1813." t with
       | Some x, _ => of rpc_env var1057 x
       | _, Some x => of rfc1813_env var1813 x
       | _, _ => None
       end.
Definition type_name (t : gx) : option string :=
  match t with
  | EId x => Some x
  | ESel (EId p) x => Some (p ++ "." ++ x)%string
  | _ => None
  end.
Definition universe1 (x : string) : option ev :=
  if String.eqb x "nil" then Some VNil else if String.eqb x "true" then Some (VV "bool" (VBool true))
  else if String.eqb x "false" then Some (VV "bool" (VBool false)) else None.
Definition path1 (en : env1) (e : gx) : option string :=
  match e with
  | ESel (EId p) x => if GoLex.mem p pkgs1 then match assoc p en with Some _ => None | None => Some (p ++ "." ++ x)%string end else None
  | _ => None
  end.

Definition num (v : ev) : option Z := match v with VK z => Some z | VV _ w => Some (int_of w) | _ => None end.
(** v.f *)
Definition sel (v : ev) (f : string) : option ev :=
  match v with
  | VV _ w => Some (VV "" (fld f w))
  | VTcp p => if String.eqb f "Port" then Some (VV "int" (VInt p)) else None
  | _ => None
  end.
(** What is stored where [old] was. *)
Definition into (old : val) (v : ev) : option val :=
  match v, old with
  | VV _ w, _ => Some w
  | VK z, VInt _ => Some (VInt z)
  | VS s, VStr _ => Some (VStr s)
  | _, _ => None
  end.
Fixpoint set1 (v : val) (path : list string) (u : ev) : option val :=
  match path with
  | [] => into v u
  | f :: path =>
      match v with
      | VStruct l => match lookup f l with Some w => match set1 w path u with Some w' => option_map VStruct (assoc_set f w' l) | None => None end | None => None end
      | _ => None
      end
  end.
(** A value given to a parameter or result of type [t]. *)
Definition take (t : gx) (v : ev) : option ev :=
  match t, v with
  | EUn _ _, VClient _ => Some v
  | EId "string", VS _ => Some v
  | EId "uint32", VK z => Some (VV "uint32" (VInt z))
  | _, VV _ w => option_map (fun t => VV t w) (type_name t)
  | _, _ => None
  end.

(** Comparison: numbers, and errors with nil. *)
Definition differ (a b : ev) : option bool :=
  match a, b with
  | VE e, VNil => Some e
  | _, _ => match num a, num b with Some x, Some y => Some (negb (x =? y)) | _, _ => None end
  end.
Definition compare (o : string) (a b : ev) : option ev :=
  match differ a b with
  | Some r => if String.eqb o "!=" then Some (VV "bool" (VBool r)) else if String.eqb o "==" then Some (VV "bool" (VBool (negb r))) else None
  | None => None
  end.

(** A variable whose address is passed as an Xdrable. *)
Definition at1 (en : env1) (v : ev) : option xdrable :=
  match v with
  | VAt x => match assoc x en with
             | Some (VV t w) => option_map (fun X => mkXv (xv_env X) (xv_ty X) w) (type_of t)
             | _ => None
             end
  | _ => None
  end.
Definition put1 (en : env1) (v : ev) (w : val) : env1 :=
  match v with
  | VAt x => match assoc x en with Some (VV t _) => match assoc_set x (VV t w) en with Some en => en | None => en end | _ => en end
  | _ => en
  end.

Definition err_of {A} (o : option A) : ev := VE match o with Some _ => true | None => false end.
(** A value and an error. *)
Definition found {A} (o : option A) (f : A -> ev) (k : ev -> xp) : xp := match o with Some i => k (VTup [f i; VE false]) | None => k (VTup [VNil; VE true]) end.

(** Functions of other packages. *)
Definition outer (p : string) (vs : list ev) (en : env1) (k : env1 -> ev -> xp) : xp :=
  if String.eqb p "fmt.Sprintf" then match vs with VS f :: args => k en (VFmt f args) | _ => XStuck end
  else if String.eqb p "fmt.Printf" then match vs with VS f :: args => XPrint f args (k en (VTup [])) | _ => XStuck end
  else if String.eqb p "net.Dial" then match vs with [VS n; a] => XDial n a (fun o => found o VConn (k en)) | _ => XStuck end
  else if String.eqb p "net.Listen" then
    match vs with [VS n; VS a] => XListen n a (fun o => found o VListener (k en)) | _ => XStuck end
  else if String.eqb p "rfc1057.MakeClient" then
    match vs with
    | [VConn i; a; b] => match num a, num b with Some a, Some b => XMake i a b (fun c => k en (VClient c)) | _, _ => XStuck end
    | _ => XStuck
    end
  else if String.eqb p "rfc1057.MakeServer" then match vs with [] => k en VServer | _ => XStuck end
  else if String.eqb p "xdr.EncodeBuf" then
    match vs with
    | [a] => match at1 en a with
             | Some X => match EncodeBuf 16 (xv_env X) (xv_ty X) (xv_val X) with
                         | Ret (b, e) => k en (VTup [VV "[]byte" (VBytes (Some b)); err_of e])
                         | _ => XStuck
                         end
             | None => XStuck
             end
    | _ => XStuck
    end
  else match type_of p, vs with                                              (* conversion *)
       | Some _, [VS s] => k en (VV p (VStr s))
       | Some _, [VV _ w] => k en (VV p w)
       | _, _ => XStuck
       end.
(** Methods. *)
Definition meth (v : ev) (f : string) (vs : list ev) (en : env1) (k : env1 -> ev -> xp) : xp :=
  match v, vs with
  | VConn i, [] => if String.eqb f "Close" then XClose i (k en (VE false)) else XStuck
  | VClient c, [p; VV _ cred; VV _ verf; a; r] =>
      match num p, at1 en a, at1 en r with
      | Some p, Some A, Some R => if String.eqb f "Call" then XCall c (mkReq p cred verf A R) (fun w e => k (put1 en r w) (err_of e)) else XStuck
      | _, _, _ => XStuck
      end
  | VListener q, [] =>
      if String.eqb f "Addr" then k en (VTcp q) else if String.eqb f "Accept" then XAccept q (fun o => found o VConn (k en)) else XStuck
  | _, _ => XStuck
  end.

(** ** Expressions.  [ab]: a panic; [call f args ab k]: the function [f] of the package. *)
Section Calls.
Variable call : string -> list ev -> xp -> (ev -> xp) -> xp.
Definition inner (f : string) (vs : list ev) (en : env1) (ab : xp) (k : env1 -> ev -> xp) : xp :=
  if String.eqb f "panic" then ab
  else if String.eqb f "uint32" then match vs with [v] => match num v with Some z => k en (VV "uint32" (VInt (to_u32 z))) | None => XStuck end | _ => XStuck end
  else if String.eqb f "bool" then match vs with [VV _ w] => k en (VV "bool" (VBool (bool_of w))) | _ => XStuck end
  else call f vs ab (fun v => k en v).

Fixpoint eval1 (e : gx) (en : env1) (ab : xp) (k : env1 -> ev -> xp) {struct e} : xp :=
  let evals := fix evals (l : list gx) (en : env1) (k : env1 -> list ev -> xp) {struct l} : xp :=
    match l with
    | [] => k en []
    | a :: l => eval1 a en ab (fun en v => evals l en (fun en vs => k en (v :: vs)))
    end in
  match e with
  | EId x => match assoc x en with Some v => k en v | None => match universe1 x with Some v => k en v | None => XStuck end end
  | EInt s => k en (VK (int_lit s))
  | EStr s => k en (VS (str_lit s))
  | EParen a | EAssert a _ => eval1 a en ab k
  | EUn o a =>
      if String.eqb o "&" then match a with EId x => k en (VAt x) | _ => XStuck end
      else if String.eqb o "!" then eval1 a en ab (fun en v => match v with VV t w => k en (VV t (VBool (negb (bool_of w)))) | _ => XStuck end)
      else XStuck
  | EBin o a b => eval1 a en ab (fun en v => eval1 b en ab (fun en w => match compare o v w with Some r => k en r | None => XStuck end))
  | ESel a f =>
      match path1 en e with
      | Some p => match const_of p with Some v => k en v | None => XStuck end
      | None => eval1 a en ab (fun en v => match sel v f with Some w => k en w | None => XStuck end)
      end
  | ECall f args _ =>
      match f with
      | EId x => evals args en (fun en vs => inner x vs en ab k)
      | ESel r x =>
          match path1 en f with
          | Some p => evals args en (fun en vs => outer p vs en k)
          | None => eval1 r en ab (fun en v => evals args en (fun en vs => meth v x vs en k))
          end
      | _ => XStuck
      end
  | EComp t fs =>
      match type_name t with
      | Some n =>
          match type_of n with
          | Some X =>
              (fix fill (l : list (string * gx)) (z : val) (en : env1) {struct l} : xp :=
                 match l with
                 | [] => k en (VV n z)
                 | (f, a) :: l => eval1 a en ab (fun en v => match set1 z [f] v with Some z => fill l z en | None => XStuck end)
                 end) fs (xv_val X) en
          | None => XStuck
          end
      | None => XStuck
      end
  | _ => XStuck
  end.
Fixpoint evals1 (l : list gx) (en : env1) (ab : xp) (k : env1 -> list ev -> xp) : xp :=
  match l with
  | [] => k en []
  | a :: l => eval1 a en ab (fun en v => evals1 l en ab (fun en vs => k en (v :: vs)))
  end.

(** ** Statements *)
Definition many1 (v : ev) : list ev := match v with VTup vs => vs | v => [v] end.
Definition zero1 (t : gx) : option ev :=
  match type_name t with
  | Some n => if String.eqb n "error" then Some (VE false) else if String.eqb n "uint32" then Some (VV n (VInt 0)) else option_map (fun X => VV n (xv_val X)) (type_of n)
  | None => None
  end.
Fixpoint declare1 (xs : list string) (vs : list ev) (en : env1) : option env1 :=
  match xs, vs with
  | [], [] => Some en
  | x :: xs, v :: vs => declare1 xs vs (if String.eqb x "_" then en else (x, v) :: en)
  | _, _ => None
  end.
Definition assign1 (l : gx) (v : ev) (en : env1) : option env1 :=
  match lpath l with
  | Some (x, path) =>
      match assoc x en, v with
      | Some (VE _), VE _ => match path with [] => assoc_set x v en | _ => None end
      | Some (VV t old), _ => match set1 old path v with Some w => assoc_set x (VV t w) en | None => None end
      | _, _ => None
      end
  | None => None
  end.
Fixpoint assigns1 (ls : list gx) (vs : list ev) (en : env1) : option env1 :=
  match ls, vs with
  | [], [] => Some en
  | l :: ls, v :: vs => match assign1 l v en with Some en => assigns1 ls vs en | None => None end
  | _, _ => None
  end.
Definition leave1 (en en' : env1) : env1 := skipn (List.length en' - List.length en) en'.

(** A deferred call: what to do when it panics, when it returns. *)
Definition dcall : Type := xp -> xp -> xp.
(** The deferred calls, the latest first, then what a panic does in the caller. *)
Fixpoint unwind (ds : list dcall) (fail : xp) : xp := match ds with [] => fail | d :: ds => d (unwind ds fail) (unwind ds fail) end.
(** The same on a return. *)
Fixpoint leaving (ds : list dcall) (fail k : xp) : xp := match ds with [] => k | d :: ds => d (unwind ds fail) (leaving ds fail k) end.

(** [n]: iterations of a for loop; [ret]: a return; [fail]: a panic in the caller. *)
Fixpoint exec1 (n : nat) (s : gs) (en : env1) (ds : list dcall) (fail : xp) (ret : list dcall -> list ev -> xp) (k : env1 -> list dcall -> xp) {struct s} : xp :=
  let go := fix go (b : list gs) (en : env1) (ds : list dcall) (k : env1 -> list dcall -> xp) {struct b} : xp :=
    match b with
    | [] => k en ds
    | s :: b => exec1 n s en ds fail ret (fun en ds => go b en ds k)
    end in
  let blk b en ds k := go b en ds (fun en' ds => k (leave1 en en') ds) in
  let ab := unwind ds fail in
  match s with
  | SExpr e => eval1 e en ab (fun en _ => k en ds)
  | SVar x t => match zero1 t with Some v => k ((x, v) :: en) ds | None => XStuck end
  | SDef xs e => eval1 e en ab (fun en v => match declare1 xs (many1 v) en with Some en => k en ds | None => XStuck end)
  | SSet ls e => eval1 e en ab (fun en v => match assigns1 ls (many1 v) en with Some en => k en ds | None => XStuck end)
  | SIf c a b =>
      eval1 c en ab (fun en v =>
      match v with
      | VV _ (VBool t) => if t then blk a en ds k else match b with Some b => blk b en ds k | None => k en ds end
      | _ => XStuck
      end)
  | SFor b =>
      (fix loop (n : nat) (en : env1) (ds : list dcall) {struct n} : xp :=
         match n with O => XStuck | S n => blk b en ds (fun en ds => loop n en ds) end) n en ds
  | SRange _ x e b =>
      eval1 e en ab (fun en v =>
      match v with
      | VV _ w =>
          (fix loop (l : list val) (en : env1) (ds : list dcall) {struct l} : xp :=
             match l with
             | [] => k en ds
             | u :: l => go b ((x, VV "" u) :: en) ds (fun en' ds => loop l (leave1 en en') ds)
             end) (slice_of w) en ds
      | _ => XStuck
      end)
  | SRet es => evals1 es en ab (fun _ vs => ret ds vs)
  | SGo (ECall (ESel r f) args _) =>
      eval1 r en ab (fun en v => evals1 args en ab (fun en vs =>
      match v, vs with VServer, [VConn i] => if String.eqb f "Run" then XServe i (k en ds) else XStuck | _, _ => XStuck end))
  | SDefer (ECall (EId f) args _) => evals1 args en ab (fun en vs => k en ((fun a r => call f vs a (fun _ => r)) :: ds))
  | SDefer (ECall (ESel r f) [] _) => eval1 r en ab (fun en v => k en ((fun a r => meth v f [] en (fun _ _ => r)) :: ds))
  | _ => XStuck
  end.
Fixpoint exec_all (n : nat) (b : list gs) (en : env1) (ds : list dcall) (fail : xp) (ret : list dcall -> list ev -> xp) (k : env1 -> list dcall -> xp) : xp :=
  match b with
  | [] => k en ds
  | s :: b => exec1 n s en ds fail ret (fun en ds => exec_all n b en ds fail ret k)
  end.
End Calls.

(** ** Functions *)
Fixpoint params (ps : list (string * gx)) (vs : list ev) : option env1 :=
  match ps, vs with
  | [], [] => Some []
  | (x, t) :: ps, v :: vs => match take t v, params ps vs with Some v, Some en => Some ((x, v) :: en) | _, _ => None end
  | _, _ => None
  end.
Definition result (rs : list gx) (vs : list ev) : option ev :=
  match rs, vs with
  | [], [] => Some (VTup [])
  | [t], [v] => take t v
  | _, _ => None
  end.
Variable P : list gd.
(** [n] bounds the depth of calls, [m] the iterations of a for loop. *)
Fixpoint fun1 (n m : nat) (f : string) (vs : list ev) (fail : xp) (k : ev -> xp) : xp :=
  match n with
  | O => XStuck
  | S n =>
      match find_fun P f with
      | Some (ps, rs, body) =>
          match params ps vs with
          | Some en =>
              let ret ds vs := match result rs vs with Some v => leaving ds fail (k v) | None => XStuck end in
              exec_all (fun1 n m) m body en [] fail ret (fun _ ds => ret ds [])
          | None => XStuck
          end
      | None => XStuck
      end
  end.
Definition program1 (m : nat) : xp := fun1 3 m "main" [] XPanic (fun _ => XEnd).
End Sem.
