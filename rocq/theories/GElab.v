(** The meaning of a specification: its named types as [cty], with the names of constants
    resolved (RFC 4506, section 6; the encoding of each is [xdr] of Interp.v), and the
    conditions on the names used under which the emitted Go refers to the same things. *)
From Verif Require Import Bytes XdrLib Types Interp GoLex XLex Gram GParse Emit GoAst GoSem.
Open Scope string_scope.
Open Scope Z_scope.
Open Scope list_scope.

(** ** Constants of a specification *)
(** The name in the specification, the name in Go, the value. *)
Record xconst : Type := mkXc { xc_name : string; xc_go : string; xc_val : string }.
Definition xconsts_of (d : defn) : list xconst :=
  match d with
  | defConst n v => [mkXc n n v]                                                   (* out.go:444-446 *)
  | defEnum _ items => map (fun it => mkXc (fst it) (cap (fst it)) (snd it)) items   (* out.go:482-484 *)
  | _ => []
  end.
Fixpoint find_x (x : string) (l : list xconst) : option xconst :=
  match l with [] => None | c :: l => if String.eqb x (xc_name c) then Some c else find_x x l end.
Section Consts.
Variable K : list xconst.
Fixpoint xval_n (n : nat) (x : string) : option Z :=
  match n with
  | O => None
  | S n => match find_x x K with
           | Some c => if head_is is_digit (xc_val c) then num_val (xc_val c) else xval_n n (xc_val c)
           | None => None
           end
  end.
(** The value of a literal or of the constant named [s]. *)
Definition xval (s : string) : option Z := if head_is is_digit s then num_val s else xval_n (S (List.length K)) s.
(** A bound; "" is none. *)
Definition xbound (s : string) : option (option Z) :=
  if String.eqb s "" then Some None
  else match xval s with Some k => if (0 <=? k) && (k <=? MaxUint32) then Some (Some k) else None | None => None end.
(** A case label; TRUE and FALSE are those of bool. *)
Definition xlabel (s : string) : option Z :=
  if String.eqb s "TRUE" then Some 1 else if String.eqb s "FALSE" then Some 0 else xval s.
Definition xlabels : list string -> option (list Z) := all_some xlabel.

(** ** Types; None for what the generator does not support *)
Fixpoint el (t : typespec) : option cty :=
  match t with
  | typeInt u => Some (if u then CU32 else CS32)
  | typeHyper u => Some (if u then CU64 else CS64)
  | typeFloat | typeDouble | typeQuadruple | typeEnum _ => None
  | typeBool => Some CBool
  | typeStruct items =>
      do fs <- (fix go l := match l with [] => Some [] | d :: l => do a <- el_arm d ; do b <- go l ; Some (opt_list a ++ b) end) items ;
      Some (CStruct fs)
  | typeUnion sw cases def =>
      match sw with
      | declVoid => None
      | declName st sn =>
          do st <- el_dt st ;
          do arms <- (fix go (l : list (list string * decl)) :=
                        match l with [] => Some [] | c :: l => do ls <- xlabels (fst c) ; do a <- el_arm (snd c) ; do b <- go l ; Some ((ls, a) :: b) end) cases ;
          do d <- match def with Some d => do a <- el_arm d ; Some (Some a) | None => Some None end ;
          Some (CUnion (cap sn) st arms d)
      end
  | typeIdent n => Some (CIdent (cap n))
  end
with el_dt (t : declType) : option cty :=
  match t with
  | declTypeTypespec t => el t
  | declTypeArray _ _ => None
  | declTypeVarArray t sz => do m <- xbound sz ; do c <- el t ; Some (CVarArray m c)
  | declTypeOpaqueArray sz => do k <- xval sz ; if (0 <=? k) && (k <=? MaxUint32) then Some (COpaque (Z.to_nat k)) else None
  | declTypeOpaqueVarArray sz => do m <- xbound sz ; Some (CVarOpaque m)
  | declTypeString sz => do m <- xbound sz ; Some (CString m)
  | declTypePtr t => do c <- el t ; Some (CPtr c)
  end
with el_arm (d : decl) : option (option (string * cty)) :=
  match d with
  | declVoid => Some None
  | declName t n => do c <- el_dt t ; Some (Some (cap n, c))
  end.
End Consts.

Definition xconsts (ds : list defn) : list xconst := flat_map xconsts_of ds.
(** A named type; -unsigned-enum (main.go:18) makes enums unsigned. *)
Definition el_defn (fl : flags) (K : list xconst) (d : defn) : option (list (string * cty)) :=
  match d with
  | defTypedef (declName t n) =>
      do c <- el_dt K t ; Some [(cap n, match t with declTypePtr _ => CStruct [("P", c)] | _ => c end)]
  | defTypedef declVoid => Some []
  | defEnum n _ => Some [(cap n, if fl_unsigned fl then CU32 else CS32)]
  | defStruct n items => do c <- el K (typeStruct items) ; Some [(cap n, c)]
  | defUnion n s cs d => do c <- el K (typeUnion s cs d) ; Some [(cap n, c)]
  | defConst _ _ | defProg _ => Some []
  end.
Definition el_spec (fl : flags) (ds : list defn) : option env := all_decls (el_defn fl (xconsts ds)) ds.

(** ** Conditions on names *)
(** Names the emitted methods use for something else, and those that cannot be declared. *)
Definition reserved : list string :=
  ["v"; "xs"; "i"; "opted"; "__arraysz"; "xdr"; "len"; "make"; "new"; "nil"; "true"; "false"; "byte"; "string"; "bool"; "int"; "uint32"; "int32";
   "uint64"; "int64"; "float32"; "float64"; "error"; "w"; "h"; "in"; "out"; "args"; "res"; "err"; "_"; "init"; "main"; "type"; "map"].
Definition pkg_names (G : gpkg) : list string := map fst (g_types G) ++ map c_name (g_consts G).

Section Names.
Variable K : list xconst.
Variable E : env.
(** The constant called [s] in the specification is called [g] in Go. *)
Definition named (s g : string) : bool := match find_x s K with Some c => String.eqb (xc_go c) g | None => false end.
Definition use_ok (s : string) : bool := head_is is_digit s || named s s.
Definition bound_ok (s : string) : bool := String.eqb s "" || use_ok s.
(** Discriminants: true for bool, false for an integer type. *)
Fixpoint disc_kind (n : nat) (c : cty) : option bool :=
  match n with
  | O => None
  | S n => match c with
           | CBool => Some true
           | CU32 | CS32 | CU64 | CS64 => Some false
           | CIdent x => match lookup x E with Some c => disc_kind n c | None => None end
           | _ => None
           end
  end.
Definition label_ok (b : bool) (s : string) : bool :=
  if b then String.eqb s "TRUE" || String.eqb s "FALSE"
  else negb (String.eqb s "TRUE" || String.eqb s "FALSE") && (head_is is_digit s || named s (cap s)).
Definition disc_ok (st : declType) (cases : list (list string * decl)) : bool :=
  match el_dt K st with
  | Some c => match disc_kind (S (List.length E)) c with
              | Some b => forallb (fun x => forallb (label_ok b) (fst x)) cases
              | None => false
              end
  | None => false
  end.
(** [arr]: inside an element of a variable array given inline. *)
Fixpoint nok (arr : bool) (t : typespec) : bool :=
  match t with
  | typeStruct items => (fix go l := match l with [] => true | d :: l => nok_d arr d && go l end) items
  | typeUnion sw cases def =>
      match sw with declVoid => false | declName st _ => disc_ok st cases && nok_dt arr st end &&
      (fix go (l : list (list string * decl)) := match l with [] => true | c :: l => nok_d arr (snd c) && go l end) cases &&
      match def with Some d => nok_d arr d | None => true end
  | _ => true
  end
with nok_dt (arr : bool) (t : declType) : bool :=
  match t with
  | declTypeTypespec t => nok arr t
  | declTypeArray _ _ => false
  | declTypeVarArray t sz => negb arr && bound_ok sz && nok true t
  | declTypeOpaqueArray sz => use_ok sz
  | declTypeOpaqueVarArray sz | declTypeString sz => bound_ok sz
  | declTypePtr t => nok arr t
  end
with nok_d (arr : bool) (d : decl) : bool :=
  match d with declVoid => true | declName t _ => nok_dt arr t end.
Definition nok_defn (d : defn) : bool :=
  match d with
  | defTypedef d => nok_d false d
  | defEnum _ items => forallb (fun it => use_ok (snd it)) items
  | defStruct _ items => nok false (typeStruct items)
  | defUnion _ s c d => nok false (typeUnion s c d)
  | defConst _ v => use_ok v
  | defProg _ => true
  end.
End Names.

Fixpoint nodupb (l : list string) : bool := match l with [] => true | x :: l => negb (mem x l) && nodupb l end.

(** The named types of a supported specification. *)
Definition supported (fl : flags) (ds : list defn) : option (env * gpkg) :=
  do E <- el_spec fl ds ;
  do G <- pkg_of fl ds ;
  if forallb (nok_defn (xconsts ds) E) ds && nodupb (pkg_names G) && forallb (fun x => negb (mem x reserved)) (pkg_names G)
  then Some (E, G) else None.
