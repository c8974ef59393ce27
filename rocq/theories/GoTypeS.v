(** When the Go emitted for a specification is well typed, in terms of the specification. *)
From Verif Require Import GoLex XLex Gram GParse Emit Bytes XdrLib Types Interp GoAst GoSem GElab GoRes GoType.
Open Scope string_scope.
Open Scope Z_scope.
Open Scope list_scope.

(** ** Names the specification leaves to the emitted code *)
Definition local_names : list string := ["v"; "xs"; "i"; "opted"; "__arraysz"].
Definition not_local (s : string) : bool := negb (mem s local_names).
(** No bound and no label is called like a variable of the emitted code, and every case has a
    label (xdr.y:240-247: the parser allows no other). *)
Fixpoint cln (t : typespec) : bool :=
  match t with
  | typeStruct items => (fix go l := match l with [] => true | d :: l => cln_d d && go l end) items
  | typeUnion sw cases def =>
      cln_d sw &&
      (fix go (l : list (list string * decl)) :=
         match l with
         | [] => true
         | c :: l => negb (match fst c with [] => true | _ => false end) && forallb (fun s => not_local (cap s)) (fst c) && cln_d (snd c) && go l
         end) cases &&
      match def with Some d => cln_d d | None => true end
  | _ => true
  end
with cln_dt (t : declType) : bool :=
  match t with
  | declTypeTypespec t | declTypePtr t => cln t
  | declTypeArray t sz | declTypeVarArray t sz => not_local sz && cln t
  | declTypeOpaqueArray sz | declTypeOpaqueVarArray sz | declTypeString sz => not_local sz
  end
with cln_d (d : decl) : bool := match d with declVoid => true | declName t _ => cln_dt t end.
Definition cln_defn (d : defn) : bool :=
  match d with
  | defTypedef d => cln_d d
  | defStruct _ items => cln (typeStruct items)
  | defUnion _ s c d => cln (typeUnion s c d)
  | defEnum _ _ | defConst _ _ | defProg _ => true
  end.
Definition clean (G : gpkg) (ds : list defn) : bool :=
  forallb cln_defn ds && forallb (fun x => negb (mem x ("xdr.XdrState" :: reserved))) (pkg_names G).

Section Spec.
(** The declared types and constants. *)
Variable G : gpkg.
Variable n : nat.

(** A literal or constant where a value of the type [t] is expected: an untyped constant must
    be in range, a typed one must be of that very type. *)
Definition cfits (t : gty) (s : string) : bool := match tc G n [] (val_expr s) with Some k => assignable G n k t | None => false end.
(** A literal or constant converted to int. *)
Definition cint (s : string) : bool := match tc G n [] (size_expr s) with Some k => match tc_conv G n k gInt with Some _ => true | None => false end | None => false end.
(** The size of an array. *)
Definition csize (s : string) : bool := match size_val G s with Some k => (0 <=? k) && (k <=? 9223372036854775807) | None => false end.
Definition cvalue (s : string) : list Z := match tc G n [] (val_expr s) with Some (KCon _ z) => [z] | _ => [] end.

(** ** Types: every name declared, members distinct, sizes known *)
Definition member (d : decl) : list string := match d with declVoid => [] | declName _ m => [cap m] end.
Definition distinct_members (l : list string) : bool := nodupb (filter (fun f => negb (String.eqb f "_")) l).
Fixpoint vok (t : typespec) : bool :=
  match t with
  | typeIdent x => mem (cap x) (map fst (g_types G))
  | typeStruct items =>
      distinct_members (flat_map member items) && (fix go l := match l with [] => true | d :: l => vok_d d && go l end) items
  | typeUnion sw cases def =>
      distinct_members (member sw ++ flat_map (fun c => member (snd c)) cases ++ match def with Some d => member d | None => [] end) &&
      vok_d sw && (fix go (l : list (list string * decl)) := match l with [] => true | c :: l => vok_d (snd c) && go l end) cases &&
      match def with Some d => vok_d d | None => true end
  | _ => true
  end
with vok_dt (t : declType) : bool :=
  match t with
  | declTypeTypespec t | declTypeVarArray t _ | declTypePtr t => vok t
  | declTypeArray t sz => csize sz && vok t
  | declTypeOpaqueArray sz => csize sz
  | declTypeOpaqueVarArray _ | declTypeString _ => true
  end
with vok_d (d : decl) : bool := match d with declVoid => true | declName t _ => vok_dt t end.

(** ** Types that encode to nothing: structs without members, and fixed-size arrays of them *)
Fixpoint nop (t : typespec) : bool :=
  match t with
  | typeStruct items => (fix go l := match l with [] => true | d :: l => nop_d d && go l end) items
  | _ => false
  end
with nop_dt (t : declType) : bool :=
  match t with
  | declTypeTypespec t => nop t
  | declTypeArray t sz => cfits gInt sz && nop t
  | _ => false
  end
with nop_d (d : decl) : bool := match d with declVoid => true | declName t _ => nop_dt t end.

(** ** Bounds, discriminants and labels of the right types; a fixed-size array only of what
    encodes to nothing *)
Definition dty (st : declType) : gty := match gt_dt st with Some g => g | None => gBool end.
Fixpoint uok (t : typespec) : bool :=
  match t with
  | typeStruct items => (fix go l := match l with [] => true | d :: l => uok_d d && go l end) items
  | typeUnion sw cases def =>
      match sw with
      | declVoid => false
      | declName st sn =>
          uok_dt st && negb (String.eqb (cap sn) "_") && comparable G n KBool (dty st) &&
          forallb (fun c => forallb (fun s => cfits (dty st) (cap s)) (fst c)) cases &&
          distinct (flat_map (fun c => flat_map (fun s => cvalue (cap s)) (fst c)) cases)
      end &&
      (fix go (l : list (list string * decl)) := match l with [] => true | c :: l => uok_d (snd c) && go l end) cases &&
      match def with Some d => uok_d d | None => true end
  | _ => true
  end
with uok_dt (t : declType) : bool :=
  match t with
  | declTypeTypespec t | declTypePtr t => uok t
  | declTypeArray t sz => cfits gInt sz && nop t
  | declTypeVarArray t sz => (String.eqb sz "" || cfits gU32 sz) && uok t
  | declTypeOpaqueArray _ => true
  | declTypeOpaqueVarArray sz | declTypeString sz => cint sz
  end
with uok_d (d : decl) : bool :=
  match d with declVoid => true | declName t m => if String.eqb (cap m) "_" then nop_dt t else uok_dt t end.

Definition spec_type (d : defn) : bool :=
  match d with
  | defTypedef declVoid => true
  | defTypedef (declName t _) => vok_dt t
  | defStruct _ items => vok (typeStruct items)
  | defUnion _ s c d => vok (typeUnion s c d)
  | defEnum _ _ | defConst _ _ | defProg _ => true
  end.
Definition spec_code (d : defn) : bool :=
  match d with
  | defTypedef declVoid => true
  | defTypedef (declName t _) => uok_dt t
  | defStruct _ items => uok (typeStruct items)
  | defUnion _ s c d => uok (typeUnion s c d)
  | defEnum _ _ | defConst _ _ | defProg _ => true
  end.
(** The whole specification. *)
Definition spec_ok (ds : list defn) : bool :=
  nodupb (pkg_names G) &&                                                     (* nothing declared twice *)
  forallb (tc_const G n) (g_consts G) &&                                      (* constants in range of their types *)
  forallb spec_type ds && forallb (fun x => sized G n (GNamed x)) (map fst (g_types G)) &&
  forallb (fun x => negb (mem "Xdr" (fields_of G n x))) (map fst (g_types G)) && (* no member called like the method *)
  forallb spec_code ds.
End Spec.

(** ** A fixed-size array of something with members, anywhere in a type *)
Fixpoint vacuous (t : typespec) : bool :=
  match t with
  | typeStruct items => (fix go l := match l with [] => true | d :: l => vacuous_d d && go l end) items
  | _ => false
  end
with vacuous_dt (t : declType) : bool :=
  match t with
  | declTypeTypespec t | declTypeArray t _ => vacuous t
  | _ => false
  end
with vacuous_d (d : decl) : bool := match d with declVoid => true | declName t _ => vacuous_dt t end.
Fixpoint fixed (t : typespec) : bool :=
  match t with
  | typeStruct items => (fix go l := match l with [] => false | d :: l => fixed_d d || go l end) items
  | typeUnion sw cases def =>
      fixed_d sw ||
      (fix go (l : list (list string * decl)) := match l with [] => false | c :: l => fixed_d (snd c) || go l end) cases ||
      match def with Some d => fixed_d d | None => false end
  | _ => false
  end
with fixed_dt (t : declType) : bool :=
  match t with
  | declTypeTypespec t | declTypeVarArray t _ | declTypePtr t => fixed t
  | declTypeArray t _ => negb (vacuous t) || fixed t
  | declTypeOpaqueArray _ | declTypeOpaqueVarArray _ | declTypeString _ => false
  end
with fixed_d (d : decl) : bool := match d with declVoid => false | declName t _ => fixed_dt t end.
Definition fixed_defn (d : defn) : bool :=
  match d with
  | defTypedef d => fixed_d d
  | defStruct _ items => fixed (typeStruct items)
  | defUnion _ s c d => fixed (typeUnion s c d)
  | defEnum _ _ | defConst _ _ | defProg _ => false
  end.
