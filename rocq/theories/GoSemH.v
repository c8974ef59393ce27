(** The emitted Go code again, with byte slices in memory: GoSem.v's semantics with the values,
    library functions and state of Heap.v, so that a slice decoded from the buffer shares the
    buffer's block, appending may write into spare capacity, and assigning a slice copies its
    header and not its bytes.  The clauses are those of GoSem.v (same sections of the Go
    specification); only byte slices differ.  GoSemHP.v relates the two. *)
From Coq Require Import Ascii.
From Verif Require Import Bytes XdrLib Types GoLex XLex Gram GParse Emit GoAst GoSem Heap.
Open Scope string_scope.
Open Scope Z_scope.
Open Scope list_scope.

Section Sem.
Variable G : gpkg.
(** The capacity append chooses, as in Heap.v. *)
Variable grow : nat -> nat -> nat.

(** A zero value has no byte slice but nil. *)
Definition gzeroH (n : nat) (t : gty) : option hval := option_map hlift (gzero G n t).

(** ** Memory of one method call *)
Record hframe : Type := mkHF { hf_recv : hval; hf_locs : list (string * hval) }.
Definition step_loadH (v : hval) (p : step) : option hval :=
  match v, p with
  | HStruct l, PField f => lookup f l
  | HSlice (Some l), PIdx k => nth_error l k
  | HPtr (Some x), PDeref => Some x
  | _, _ => None
  end.
Definition step_storeH (v : hval) (p : step) (x : hval) : option hval :=
  match v, p with
  | HStruct l, PField f => match lookup f l with Some _ => Some (HStruct (update f x l)) | None => None end
  | HSlice (Some l), PIdx k => option_map (fun l => HSlice (Some l)) (set_nth k x l)
  | HPtr (Some _), PDeref => Some (HPtr (Some x))
  | _, _ => None
  end.
Fixpoint path_loadH (v : hval) (p : list step) : option hval :=
  match p with [] => Some v | a :: p => match step_loadH v a with Some w => path_loadH w p | None => None end end.
Fixpoint path_storeH (v : hval) (p : list step) (x : hval) : option hval :=
  match p with
  | [] => Some x
  | a :: p => match step_loadH v a with
              | Some w => match path_storeH w p x with Some w' => step_storeH v a w' | None => None end
              | None => None
              end
  end.
(** Locals, innermost first; a variable's level is the number of those declared before it. *)
Fixpoint loc_getH (k : nat) (l : list (string * hval)) : option hval :=
  match l with [] => None | (_, v) :: l => if Nat.eqb k (List.length l) then Some v else loc_getH k l end.
Fixpoint loc_setH (k : nat) (x : hval) (l : list (string * hval)) : option (list (string * hval)) :=
  match l with
  | [] => None
  | (y, v) :: l => if Nat.eqb k (List.length l) then Some ((y, x) :: l) else option_map (cons (y, v)) (loc_setH k x l)
  end.
Fixpoint loc_findH (x : string) (l : list (string * hval)) : option nat :=
  match l with [] => None | (y, _) :: l => if String.eqb x y then Some (List.length l) else loc_findH x l end.

Definition loadH (fr : hframe) (p : place) : option hval :=
  match p with PRecv p => path_loadH (hf_recv fr) p | PLoc k => loc_getH k (hf_locs fr) end.
Definition storeH (fr : hframe) (p : place) (x : hval) : option hframe :=
  match p with
  | PRecv p => option_map (fun v => mkHF v (hf_locs fr)) (path_storeH (hf_recv fr) p x)
  | PLoc k => option_map (fun l => mkHF (hf_recv fr) l) (loc_setH k x (hf_locs fr))
  end.

(** ** Expressions *)
Inductive gvalH : Type :=
| HGV (v : hval)
| HGP (p : option place)                 (* a pointer; None = nil *)
| HGS (p : place)                        (* the slice of all of an array *)
| HGX.                                   (* xs *)
Inductive operandH : Type := HOPl (p : place) | HOVal (g : gvalH).

(** The value of an operand; a pointer in memory is followed to a place when it is read. *)
Definition rvalH (fr : hframe) (o : operandH) : gor gvalH :=
  match o with
  | HOVal g => GRet g
  | HOPl p => match loadH fr p with
             | Some (HPtr None) => GRet (HGP None)
             | Some (HPtr (Some _)) => match sub p PDeref with Some q => GRet (HGP (Some q)) | None => GStuck end
             | Some v => GRet (HGV v)
             | None => GStuck
             end
  end.
Definition conv_valH (t : gty) (g : gvalH) : gor gvalH :=
  match t, g with
  | GPtr _, HGP p => GRet (HGP p)
  | GBasic b, HGV (HInt z) =>
      if String.eqb b "uint64" then GRet (HGV (HInt (to_u64 z))) else if String.eqb b "int" then GRet (HGV (HInt (to_s64 z))) else GStuck
  | _, _ => GStuck
  end.
Definition compareH (f : Z -> Z -> bool) (a b : gvalH) : gor operandH :=
  match a, b with HGV (HInt x), HGV (HInt y) => GRet (HOVal (HGV (HBool (f x y)))) | _, _ => GStuck end.

Fixpoint evH (n : nat) (s : hst) (fr : hframe) (e : expr) {struct e} : gor operandH :=
  match e with
  | EVar x =>
      match loc_findH x (hf_locs fr) with
      | Some k => GRet (HOPl (PLoc k))
      | None =>
          if String.eqb x "v" then GRet (HOVal (HGP (Some (PRecv []))))
          else if String.eqb x "xs" then GRet (HOVal HGX)
          else match cval G x with
               | Some z => GRet (HOVal (HGV (HInt z)))
               | None => if String.eqb x "nil" then GRet (HOVal (HGP None))
                         else if String.eqb x "true" then GRet (HOVal (HGV (HBool true)))
                         else if String.eqb x "false" then GRet (HOVal (HGV (HBool false))) else GStuck
               end
      end
  | ENum t => let! z := some_or (num_val t) GStuck in GRet (HOVal (HGV (HInt z)))
  | EStr _ => GStuck                                   (* only an argument of SetError *)
  | EParen e => evH n s fr e
  | EDeref e =>
      let! o := evH n s fr e in let! g := rvalH fr o in
      match g with HGP (Some p) => GRet (HOPl p) | HGP None => GPanic | _ => GStuck end
  | EAddr e => let! o := evH n s fr e in match o with HOPl p => GRet (HOVal (HGP (Some p))) | HOVal _ => GStuck end
  | ESel e f =>                                        (* a pointer is dereferenced *)
      let! o := evH n s fr e in let! g := rvalH fr o in
      match g with
      | HGP (Some p) => match sub p (PField f) with Some q => GRet (HOPl q) | None => GStuck end
      | HGP None => GPanic
      | _ => match o with HOPl p => match sub p (PField f) with Some q => GRet (HOPl q) | None => GStuck end | HOVal _ => GStuck end
      end
  | EIdx e i =>
      let! o := evH n s fr e in let! oi := evH n s fr i in let! gi := rvalH fr oi in let! g := rvalH fr o in
      match o, g, gi with
      | HOPl p, HGV (HSlice l), HGV (HInt k) =>
          if (0 <=? k) && (k <? zlen (helems l)) then match sub p (PIdx (Z.to_nat k)) with Some q => GRet (HOPl q) | None => GStuck end else GPanic
      | _, _, _ => GStuck
      end
  | EAll e => let! o := evH n s fr e in match o with HOPl p => GRet (HOVal (HGS p)) | HOVal _ => GStuck end
  | EConv t e => let! o := evH n s fr e in let! g := rvalH fr o in let! g := conv_valH t g in GRet (HOVal g)
  | ELen e =>
      let! o := evH n s fr e in let! g := rvalH fr o in
      match g with HGV (HSlice l) => GRet (HOVal (HGV (HInt (zlen (helems l))))) | _ => GStuck end
  | EMake t e =>
      let! o := evH n s fr e in let! g := rvalH fr o in
      match t, g with
      | GSlice t, HGV (HInt k) => let! z := some_or (gzeroH n t) GOut in GRet (HOVal (HGV (HSlice (Some (repeat z (Z.to_nat k))))))
      | _, _ => GStuck
      end
  | ENew t => let! z := some_or (gzeroH n t) GOut in GRet (HOVal (HGV (HPtr (Some z))))
  | EQuery x m =>
      match loc_findH x (hf_locs fr) with
      | Some _ => GStuck
      | None => if negb (String.eqb x "xs") then GStuck
                else if String.eqb m "Encoding" then GRet (HOVal (HGV (HBool (HEncoding s))))
                else if String.eqb m "Decoding" then GRet (HOVal (HGV (HBool (HDecoding s)))) else GStuck
      end
  | ENe a b =>                                         (* only pointers are compared so *)
      let! oa := evH n s fr a in let! ga := rvalH fr oa in let! ob := evH n s fr b in let! gb := rvalH fr ob in
      match ga, gb with
      | HGP p, HGP None => GRet (HOVal (HGV (HBool (match p with Some _ => true | None => false end))))
      | _, _ => GStuck
      end
  | EGt a b => let! oa := evH n s fr a in let! ga := rvalH fr oa in let! ob := evH n s fr b in let! gb := rvalH fr ob in compareH Z.gtb ga gb
  | ELt a b => let! oa := evH n s fr a in let! ga := rvalH fr oa in let! ob := evH n s fr b in let! gb := rvalH fr ob in compareH Z.ltb ga gb
  end.
Definition evvH (n : nat) (s : hst) (fr : hframe) (e : expr) : gor gvalH := let! o := evH n s fr e in rvalH fr o.
Definition ev_boolH (n : nat) (s : hst) (fr : hframe) (e : expr) : gor bool :=
  let! g := evvH n s fr e in match g with HGV (HBool b) => GRet b | _ => GStuck end.

(** ** Calls into the library and to other methods *)
(** The pointee of an argument, replaced by what [f] makes of it. *)
Definition throughH (fr : hframe) (g : gvalH) (f : hval -> gor (heap * hst * hval)) : gor (heap * hst * hframe) :=
  match g with
  | HGP (Some p) | HGS p =>
      let! x := some_or (loadH fr p) GStuck in
      let! (h, s, x) := f x in
      let! fr := some_or (storeH fr p x) GStuck in GRet (h, s, fr)
  | HGP None => GPanic
  | _ => GStuck
  end.
(** The functions of /repo/xdr/lib.go; [m] is the bound argument of the ones that have it. *)
Definition lib_funH (fn : string) (h : heap) (s : hst) (m : option Z) (x : hval) : gor (heap * hst * hval) :=
  match m, x with
  | None, HInt z =>
      if String.eqb fn "XdrU32" then let '(h, s, z) := HXdrU32 grow h s z in GRet (h, s, HInt z)
      else if String.eqb fn "XdrS32" then let '(h, s, z) := HXdrS32 grow h s z in GRet (h, s, HInt z)
      else if String.eqb fn "XdrU64" then let '(h, s, z) := HXdrU64 grow h s z in GRet (h, s, HInt z)
      else if String.eqb fn "XdrS64" then let '(h, s, z) := HXdrS64 grow h s z in GRet (h, s, HInt z) else GStuck
  | None, HBool b => if String.eqb fn "XdrBool" then let '(h, s, b) := HXdrBool grow h s b in GRet (h, s, HBool b) else GStuck
  | None, HArr bs => if String.eqb fn "XdrArray" then let '(h, s, bs) := HXdrArray grow h s bs in GRet (h, s, HArr bs) else GStuck
  | Some m, HBytes o => if String.eqb fn "XdrVarArray" then let '(h, s, o) := HXdrVarArray grow h s m o in GRet (h, s, HBytes o) else GStuck
  | Some m, HStr bs => if String.eqb fn "XdrString" then let '(h, s, bs) := HXdrString grow h s m bs in GRet (h, s, HStr bs) else GStuck
  | _, _ => GStuck
  end.

(** ** Statements *)
Definition popH (k : nat) (fr : hframe) : hframe := mkHF (hf_recv fr) (skipn (List.length (hf_locs fr) - k) (hf_locs fr)).
Definition pushH (x : string) (v : hval) (fr : hframe) : hframe := mkHF (hf_recv fr) ((x, v) :: hf_locs fr).
Definition depthH (fr : hframe) : nat := List.length (hf_locs fr).

(** The clause a switch starts with: the first one whose label equals [g], else the default.
    All clauses from there on are returned. *)
Fixpoint find_clauseH (n : nat) (s : hst) (fr : hframe) (g : gvalH) (cs : list (option expr * list stmt * bool)) : gor (option (list (option expr * list stmt * bool))) :=
  match cs with
  | [] => GRet None
  | ((Some l, _, _) :: r) as cs =>
      let! gl := evvH n s fr l in
      match g, gl with
      | HGV (HInt a), HGV (HInt b) => if a =? b then GRet (Some cs) else find_clauseH n s fr g r
      | HGV (HBool a), HGV (HBool b) => if Bool.eqb a b then GRet (Some cs) else find_clauseH n s fr g r
      | _, _ => GStuck
      end
  | (None, _, _) :: r => find_clauseH n s fr g r
  end.
Fixpoint find_defaultH (cs : list (option expr * list stmt * bool)) : option (list (option expr * list stmt * bool)) :=
  match cs with [] => None | ((None, _, _) :: _) as cs => Some cs | _ :: r => find_defaultH r end.

Definition frame0H (v : hval) : hframe := mkHF v [].

Section Exec.
(** How a single statement runs. *)
Variable X : heap -> hst -> hframe -> stmt -> gor (heap * hst * hframe).
(** Statements one after another. *)
Fixpoint seqH (h : heap) (s : hst) (fr : hframe) (ss : list stmt) : gor (heap * hst * hframe) :=
  match ss with [] => GRet (h, s, fr) | a :: ss => let! (h, s, fr) := X h s fr a in seqH h s fr ss end.
(** A block: its variables end with it. *)
Definition blockH (h : heap) (s : hst) (fr : hframe) (ss : list stmt) : gor (heap * hst * hframe) :=
  let! (h, s, fr') := seqH h s fr ss in GRet (h, s, popH (depthH fr) fr').
(** [x++]; no wrap: x stays below a 64-bit bound. *)
Definition incrH (x : string) (fr : hframe) : gor hframe :=
  match loc_findH x (hf_locs fr) with
  | Some k => match loc_getH k (hf_locs fr) with Some (HInt z) => some_or (storeH fr (PLoc k) (HInt (z + 1))) GStuck | _ => GStuck end
  | None => GStuck
  end.
Fixpoint loopH (n k : nat) (x : string) (c : expr) (ss : list stmt) (h : heap) (s : hst) (fr : hframe) : gor (heap * hst * hframe) :=
  match k with
  | O => GOut
  | S k =>
      let! t := ev_boolH n s fr c in
      if t then let! (h, s, fr) := blockH h s fr ss in let! fr := incrH x fr in loopH n k x c ss h s fr
      else GRet (h, s, fr)
  end.
(** The clauses of a switch from the chosen one on. *)
Fixpoint runH (h : heap) (s : hst) (fr : hframe) (cs : list (option expr * list stmt * bool)) : gor (heap * hst * hframe) :=
  match cs with
  | [] => GRet (h, s, fr)
  | (_, ss, ft) :: cs => let! (h, s, fr) := blockH h s fr ss in if ft then runH h s fr cs else GRet (h, s, fr)
  end.
End Exec.

Fixpoint execH (n : nat) (h : heap) (s : hst) (fr : hframe) (st : stmt) {struct n} : gor (heap * hst * hframe) :=
  match n with
  | O => GOut
  | S n =>
      match st with
      | SPkg fn args =>
          match args with
          | EVar "xs" :: args =>
              match args with
              | [e] => let! g := evvH n s fr e in throughH fr g (lib_funH fn h s None)
              | [b; e] => let! m := evvH n s fr b in let! g := evvH n s fr e in
                          match m with HGV (HInt m) => throughH fr g (lib_funH fn h s (Some m)) | _ => GStuck end
              | _ => GStuck
              end
          | _ => GStuck
          end
      | SMeth (EVar "xs") m args =>
          if String.eqb m "EncodingSetSize" then
            match args with
            | [p; l] => let! gp := evvH n s fr p in let! gl := evvH n s fr l in
                        match gl with
                        | HGV (HInt len) => throughH fr gp (fun x => match x with HInt z => let '(s, z) := HEncodingSetSize s z len in GRet (h, s, HInt z) | _ => GStuck end)
                        | _ => GStuck
                        end
            | _ => GStuck
            end
          else if String.eqb m "SetError" then
            match args with [EStr t] => GRet (h, HSetError s t, fr) | _ => GStuck end
          else GStuck
      | SMeth (EConv (GPtr (GNamed x)) e) m args =>
          match args with
          | [EVar "xs"] =>
              if String.eqb m "Xdr" then
                match lookup x (g_meths G) with
                | None => GStuck
                | Some body =>
                    let! g := evvH n s fr e in
                    throughH fr g (fun x => let! (h, s, fr) := blockH (execH n) h s (frame0H x) body in GRet (h, s, hf_recv fr))
                end
              else GStuck
          | _ => GStuck
          end
      | SMeth _ _ _ => GStuck
      | SVar x t => let! z := some_or (gzeroH n t) GOut in GRet (h, s, pushH x z fr)
      | SDef x e => let! g := evvH n s fr e in match g with HGV v => GRet (h, s, pushH x v fr) | _ => GStuck end
      | SAssign a b =>
          let! o := evH n s fr a in let! g := evvH n s fr b in
          match o, g with HOPl p, HGV v => let! fr := some_or (storeH fr p v) GStuck in GRet (h, s, fr) | _, _ => GStuck end
      | SBlock ss => blockH (execH n) h s fr ss
      | SIf c a b =>
          let! t := ev_boolH n s fr c in
          if t then blockH (execH n) h s fr a else match b with Some b => blockH (execH n) h s fr b | None => GRet (h, s, fr) end
      | SFor x init c ss =>
          let! g := evvH n s fr init in
          match g with
          | HGV (HInt z0) => let! (h, s, fr') := loopH (execH n) n n x c ss h s (pushH x (HInt z0) fr) in GRet (h, s, popH (depthH fr) fr')
          | _ => GStuck
          end
      | SSwitch e cs =>
          let! g := evvH n s fr e in
          let! o := find_clauseH n s fr g cs in
          match o with
          | Some cs => runH (execH n) h s fr cs
          | None => match find_defaultH cs with Some cs => runH (execH n) h s fr cs | None => GRet (h, s, fr) end
          end
      end
  end.

(** A call of the generated method Xdr of [*x]: the state and the pointee afterwards. *)
Definition callH (n : nat) (x : string) (h : heap) (s : hst) (v : hval) : gor (heap * hst * hval) :=
  match lookup x (g_meths G) with
  | None => GStuck
  | Some body => let! (h, s, fr) := blockH (execH n) h s (frame0H v) body in GRet (h, s, hf_recv fr)
  end.
End Sem.
