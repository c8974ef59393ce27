(** What the generated [Xdr] methods do: one case per construct of the goXdr methods of
    /repo/out.go, on the state of /repo/xdr/lib.go.  GSimC.v proves that this is what the
    emitted Go statements compute. *)
From Verif Require Import Bytes XdrLib Types.
Open Scope string_scope.
Open Scope Z_scope.
Open Scope list_scope.

(** Outcome of running Go code: normal return, run-time panic, or the model's fuel (a
    bound on call/loop nesting) ran out. *)
Inductive outcome (A : Type) : Type :=
| Ret (a : A)
| Panic
| NoFuel.
Arguments Ret {A} a.
Arguments Panic {A}.
Arguments NoFuel {A}.

Definition obind {A B} (o : outcome A) (k : A -> outcome B) : outcome B :=
  match o with
  | Ret a => k a
  | Panic => Panic
  | NoFuel => NoFuel
  end.
Notation "' p <- o ;; k" := (obind o (fun x => match x with p => k end))
  (at level 61, p pattern, o at next level, right associativity).

(** [&((v).F)] passed to code [X]. *)
Definition on_field (X : xst -> val -> outcome (xst * val)) (s : xst) (v : val) (f : string)
  : outcome (xst * val) :=
  match v with
  | VStruct l =>
      match lookup f l with
      | Some x => '(s', x') <- X s x ;; Ret (s', VStruct (update f x' l))
      | None => Panic
      end
  | _ => Panic
  end.

(** out.go:274-283 typeStruct.goXdr: members in order. *)
Fixpoint xdr_fields (X : cty -> xst -> val -> outcome (xst * val))
    (fs : list (string * cty)) (s : xst) (v : val) : outcome (xst * val) :=
  match fs with
  | [] => Ret (s, v)
  | (f, t) :: fs => '(s1, v1) <- on_field (X t) s v f ;; xdr_fields X fs s1 v1
  end.

(** out.go:82-84 the element loop [for i := uint64(0); i < uint64(__arraysz); i++];
    indexing past the end of the slice panics. *)
Fixpoint xdr_elems (X : xst -> val -> outcome (xst * val)) (k : nat) (l : list val) (s : xst)
  : outcome (xst * list val) :=
  match k with
  | O => Ret (s, l)
  | S k =>
      match l with
      | [] => Panic
      | x :: l =>
          '(s1, x1) <- X s x ;;
          '(s2, l2) <- xdr_elems X k l s1 ;;
          Ret (s2, x1 :: l2)
      end
  end.

Definition maxlen_of (m : option Z) : Z := match m with Some k => k | None => -1 end.

Definition field_disc (v : val) (f : string) : option Z :=
  match v with
  | VStruct l => match lookup f l with Some x => disc_of x | None => None end
  | _ => None
  end.

Fixpoint xdr (n : nat) (E : env) (t : cty) (s : xst) (v : val) : outcome (xst * val) :=
  match n with
  | O => NoFuel
  | S n =>
      match t, v with
      (* out.go:195-201, 479: xdr.XdrU32 / xdr.XdrS32 *)
      | CU32, VInt z => let '(s', z') := XdrU32 s z in Ret (s', VInt z')
      | CS32, VInt z => let '(s', z') := XdrS32 s z in Ret (s', VInt z')
      (* out.go:215-221 *)
      | CU64, VInt z => let '(s', z') := XdrU64 s z in Ret (s', VInt z')
      | CS64, VInt z => let '(s', z') := XdrS64 s z in Ret (s', VInt z')
      (* out.go:241-243 *)
      | CBool, VBool b => let '(s', b') := XdrBool s b in Ret (s', VBool b')
      (* out.go:100-102 *)
      | COpaque _, VArr bs => let '(s', bs') := XdrArray s bs in Ret (s', VArr bs')
      (* out.go:112-118 *)
      | CVarOpaque m, VBytes o =>
          let '(s', o') := XdrVarArray s (maxlen_of m) o in Ret (s', VBytes o')
      (* out.go:128-134 *)
      | CString m, VStr bs =>
          let '(s', bs') := XdrString s (maxlen_of m) bs in Ret (s', VStr bs')
      (* out.go:72-90 *)
      | CVarArray m te, VSlice o =>
          let '(s1, sz0) := EncodingSetSize s 0 (zlen (elems o)) in
          let '(s2, sz) := XdrU32 s1 sz0 in
          if match m with Some k => sz >? k | None => false end
          then Ret (SetError s2 "array too large", VSlice o)
          else if Decoding s2 then
            match zero n E te with
            | None => NoFuel
            | Some z =>
                '(s3, l3) <- xdr_elems (xdr n E te) (Z.to_nat sz) (repeat z (Z.to_nat sz)) s2 ;;
                Ret (s3, VSlice (Some l3))
            end
          else
            '(s3, l3) <- xdr_elems (xdr n E te) (Z.to_nat sz) (elems o) s2 ;;
            Ret (s3, VSlice (match o with Some _ => Some l3 | None => None end))
      (* out.go:144-163 *)
      | CPtr te, VPtr o =>
          '(s1, o1) <-
            (if Encoding s then
               let opted := match o with Some _ => true | None => false end in
               let '(s1, opted) := XdrBool s opted in
               if opted then
                 match o with
                 | Some x => '(s2, x2) <- xdr n E te s1 x ;; Ret (s2, Some x2)
                 | None => Panic
                 end
               else Ret (s1, o)
             else Ret (s, o)) ;;
          if Decoding s1 then
            let '(s2, opted) := XdrBool s1 false in
            if opted then
              match zero n E te with
              | None => NoFuel
              | Some z => '(s3, x3) <- xdr n E te s2 z ;; Ret (s3, VPtr (Some x3))
              end
            else Ret (s2, VPtr o1)
          else Ret (s1, VPtr o1)
      (* out.go:274-283 *)
      | CStruct fs, VStruct _ => xdr_fields (xdr n E) fs s v
      (* out.go:303-335 *)
      | CUnion sw st arms def, VStruct _ =>
          '(s1, v1) <- on_field (xdr n E st) s v sw ;;
          match field_disc v1 sw with
          | None => Panic
          | Some d =>
              match pick_arm d arms def with
              | Some (Some (f, t)) => on_field (xdr n E t) s1 v1 f
              | _ => Ret (s1, v1)
              end
          end
      (* out.go:342-344: method call on the named type *)
      | CIdent x, _ =>
          match lookup x E with
          | Some t => xdr n E t s v
          | None => Panic
          end
      (* a value of another shape: excluded by Go's type checker *)
      | _, _ => Panic
      end
  end.

(** /repo/xdr/helper.go:3-7 [EncodeBuf] *)
Definition EncodeBuf (n : nat) (E : env) (t : cty) (v : val)
  : outcome (list byte * option xerr) :=
  '(s, _) <- xdr n E t (MakeWriter []) v ;; Ret (WriteBuf s, Error s).

(** /repo/xdr/helper.go:9-13 [DecodeBuf]; returns the error and the target's new value. *)
Definition DecodeBuf (n : nat) (E : env) (t : cty) (buf : list byte) (v : val)
  : outcome (option xerr * val) :=
  '(s, v') <- xdr n E t (MakeReader buf) v ;; Ret (Error s, v').
