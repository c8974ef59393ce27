(** Resolved XDR types and the Go values of the generated Go types.

    A [cty] is an XDR declaration after names of constants have been resolved to
    numbers; GElab.v relates it to the parsed .x syntax.  Each constructor cites the
    goType()/goXdr() pair of /repo/out.go whose Go type and generated code it stands for. *)
From Verif Require Import Bytes XdrLib.
Open Scope string_scope.
Open Scope Z_scope.
Open Scope list_scope.

Inductive cty : Type :=
| CU32 | CS32                        (* out.go:183-201 typeInt; enums: out.go:470-485 *)
| CU64 | CS64                        (* out.go:203-221 typeHyper *)
| CBool                              (* out.go:238-243 typeBool *)
| COpaque (n : nat)                  (* out.go:92-102 declTypeOpaqueArray: [n]byte *)
| CVarOpaque (max : option Z)        (* out.go:104-118 declTypeOpaqueVarArray: []byte *)
| CString (max : option Z)           (* out.go:120-134 declTypeString *)
| CVarArray (max : option Z) (t : cty) (* out.go:63-90 declTypeVarArray: []T *)
| CPtr (t : cty)                     (* out.go:136-163 declTypePtr: *T *)
| CStruct (fs : list (string * cty)) (* out.go:261-283 typeStruct; void members dropped *)
| CUnion (sw : string) (st : cty)    (* out.go:285-335 typeUnion *)
         (arms : list (list Z * option (string * cty)))
         (def : option (option (string * cty)))
| CIdent (x : string).               (* out.go:337-344 typeIdent *)

(** Go values.  Fields are looked up by name, as in Go. *)
Inductive val : Type :=
| VInt (z : Z)                       (* uint32, int32, uint64, int64 and named versions *)
| VBool (b : bool)
| VArr (bs : list byte)              (* [n]byte *)
| VBytes (o : option (list byte))    (* []byte, None = nil *)
| VStr (bs : list byte)              (* string *)
| VSlice (o : option (list val))     (* []T, None = nil *)
| VPtr (o : option val)              (* *T, None = nil; finite values only (no cycles) *)
| VStruct (l : list (string * val)).

(** Named types: Go type declarations emitted by emitTypedef/emitEnum/emitStruct/emitUnion
    (out.go:448-508). *)
Definition env := list (string * cty).

Fixpoint lookup {A} (x : string) (l : list (string * A)) : option A :=
  match l with
  | [] => None
  | (y, a) :: l => if String.eqb x y then Some a else lookup x l
  end.

Fixpoint update {A} (x : string) (a : A) (l : list (string * A)) : list (string * A) :=
  match l with
  | [] => []
  | (y, b) :: l => if String.eqb x y then (y, a) :: l else (y, b) :: update x a l
  end.

(** Fields of the Go struct generated for a union: discriminant, then the non-void arms,
    then the non-void default (out.go:290-301). *)
Definition arm_fields (arms : list (list Z * option (string * cty))) : list (string * cty) :=
  flat_map (fun a => match snd a with Some ft => [ft] | None => [] end) arms.
Definition def_fields (def : option (option (string * cty))) : list (string * cty) :=
  match def with Some (Some ft) => [ft] | _ => [] end.
Definition union_fields sw st arms def : list (string * cty) :=
  (sw, st) :: arm_fields arms ++ def_fields def.

(** The arm a Go switch over the discriminant executes: the first case listing it, else
    default, else none.  [Some None] is a void arm, [None] means no case applies. *)
Definition pick_arm (d : Z) (arms : list (list Z * option (string * cty)))
                    (def : option (option (string * cty)))
  : option (option (string * cty)) :=
  match find (fun a => existsb (Z.eqb d) (fst a)) arms with
  | Some a => Some (snd a)
  | None => def
  end.

(** Discriminant value as a number; Go bool false/true are 0/1. *)
Definition disc_of (v : val) : option Z :=
  match v with
  | VInt z => Some z
  | VBool b => Some (if b then 1 else 0)
  | _ => None
  end.

Definition elems (o : option (list val)) : list val :=
  match o with Some l => l | None => [] end.

(** ** Zero values ([var x T], [new(T)], [make([]T, n)]); fuel bounds the nesting of
    directly contained types, [None] = not enough fuel or unknown name. *)
Fixpoint zero_fields (Z0 : cty -> option val) (fs : list (string * cty))
  : option (list (string * val)) :=
  match fs with
  | [] => Some []
  | (f, t) :: fs =>
      match Z0 t, zero_fields Z0 fs with
      | Some v, Some l => Some ((f, v) :: l)
      | _, _ => None
      end
  end.

Fixpoint zero (n : nat) (E : env) (t : cty) : option val :=
  match n with
  | O => None
  | S n =>
      match t with
      | CU32 | CS32 | CU64 | CS64 => Some (VInt 0)
      | CBool => Some (VBool false)
      | COpaque k => Some (VArr (zeros k))
      | CVarOpaque _ => Some (VBytes None)
      | CString _ => Some (VStr [])
      | CVarArray _ _ => Some (VSlice None)
      | CPtr _ => Some (VPtr None)
      | CStruct fs => option_map VStruct (zero_fields (zero n E) fs)
      | CUnion sw st arms def =>
          option_map VStruct (zero_fields (zero n E) (union_fields sw st arms def))
      | CIdent x => match lookup x E with Some t => zero n E t | None => None end
      end
  end.

(** ** Go typing of values *)
Section Typing.
Variable E : env.

Inductive has_ty : cty -> val -> Prop :=
| HT_u32 z : 0 <= z < 2 ^ 32 -> has_ty CU32 (VInt z)
| HT_s32 z : - 2 ^ 31 <= z < 2 ^ 31 -> has_ty CS32 (VInt z)
| HT_u64 z : 0 <= z < 2 ^ 64 -> has_ty CU64 (VInt z)
| HT_s64 z : - 2 ^ 63 <= z < 2 ^ 63 -> has_ty CS64 (VInt z)
| HT_bool b : has_ty CBool (VBool b)
| HT_opaque n bs : List.length bs = n -> has_ty (COpaque n) (VArr bs)
| HT_varopaque m o : has_ty (CVarOpaque m) (VBytes o)
| HT_string m bs : has_ty (CString m) (VStr bs)
| HT_slice m t o : has_tys t (elems o) -> has_ty (CVarArray m t) (VSlice o)
| HT_nil t : has_ty (CPtr t) (VPtr None)
| HT_ptr t v : has_ty t v -> has_ty (CPtr t) (VPtr (Some v))
| HT_struct fs l : has_fields fs l -> has_ty (CStruct fs) (VStruct l)
| HT_union sw st arms def l :
    has_fields (union_fields sw st arms def) l ->
    has_ty (CUnion sw st arms def) (VStruct l)
| HT_ident x t v : lookup x E = Some t -> has_ty t v -> has_ty (CIdent x) v
with has_tys : cty -> list val -> Prop :=
| HTs_nil t : has_tys t []
| HTs_cons t v l : has_ty t v -> has_tys t l -> has_tys t (v :: l)
with has_fields : list (string * cty) -> list (string * val) -> Prop :=
| HF_nil : has_fields [] []
| HF_cons f t v fs l : has_ty t v -> has_fields fs l -> has_fields ((f, t) :: fs) ((f, v) :: l).

(** Types a generated [switch] can be applied to. *)
Inductive disc_ty : cty -> Prop :=
| DT_u32 : disc_ty CU32
| DT_s32 : disc_ty CS32
| DT_u64 : disc_ty CU64
| DT_s64 : disc_ty CS64
| DT_bool : disc_ty CBool
| DT_ident x t : lookup x E = Some t -> disc_ty t -> disc_ty (CIdent x).

End Typing.

Scheme has_ty_mind := Minimality for has_ty Sort Prop
  with has_tys_mind := Minimality for has_tys Sort Prop
  with has_fields_mind := Minimality for has_fields Sort Prop.
Combined Scheme has_ty_mutind from has_ty_mind, has_tys_mind, has_fields_mind.

(** ** Well-formed types: what the Go compiler requires of the emitted declarations.
    Names resolve; field names of a struct are distinct; discriminants are integers or
    booleans; every type has a finite zero value (no directly recursive types), reached
    within [D] levels. *)
Definition max_ok (m : option Z) : Prop := match m with Some k => 0 <= k | None => True end.

Inductive wf_ty (D : nat) (E : env) : cty -> Prop :=
| WF_u32 : wf_ty D E CU32
| WF_s32 : wf_ty D E CS32
| WF_u64 : wf_ty D E CU64
| WF_s64 : wf_ty D E CS64
| WF_bool : wf_ty D E CBool
| WF_opaque n : wf_ty D E (COpaque n)
| WF_varopaque m : max_ok m -> wf_ty D E (CVarOpaque m)
| WF_string m : max_ok m -> wf_ty D E (CString m)
| WF_vararray m t : max_ok m -> wf_ty D E t -> zero D E t <> None -> wf_ty D E (CVarArray m t)
| WF_ptr t : wf_ty D E t -> zero D E t <> None -> wf_ty D E (CPtr t)
| WF_struct fs :
    NoDup (map fst fs) -> (forall f t, In (f, t) fs -> wf_ty D E t) -> wf_ty D E (CStruct fs)
| WF_union sw st arms def :
    NoDup (map fst (union_fields sw st arms def)) ->
    disc_ty E st ->
    (forall f t, In (f, t) (union_fields sw st arms def) -> wf_ty D E t) ->
    wf_ty D E (CUnion sw st arms def)
| WF_ident x t : lookup x E = Some t -> wf_ty D E (CIdent x).

Definition wf_env (D : nat) (E : env) : Prop :=
  forall x t, lookup x E = Some t -> wf_ty D E t /\ zero D E t <> None.

(** A type usable with an environment: well-formed and of bounded direct depth. *)
Definition good (D : nat) (E : env) (t : cty) : Prop :=
  wf_env D E /\ wf_ty D E t /\ zero D E t <> None.
