(** Go's typing rules for the part of Go that /repo/out.go emits (GoAst.v), as a checker: the
    Go specification's "Types", "Properties of types and values", "Constants", "Declarations
    and scope", "Expressions" and "Statements", and the signatures of /repo/xdr/lib.go.

    Simplifications.  int is 64 bits wide.  An integer constant is never accepted for a
    floating-point type.  A bool label may be repeated, an integer label may not (the choice
    of the gc compiler).  [n] bounds chains of named types; more fuel accepts more. *)
From Verif Require Import GoLex XLex Gram GParse Emit Bytes XdrLib Types Interp GoAst GoSem GElab GoRes.
Open Scope string_scope.
Open Scope Z_scope.
Open Scope list_scope.

(** The parameter xs has type *xdr.XdrState (lib.go:12). *)
Definition gState : gty := GPtr (GNamed "xdr.XdrState").
(** lib.go:105-238 *)
Definition lib_sig (fn : string) : option (list gty) :=
  if String.eqb fn "XdrBool" then Some [gState; GPtr gBool]
  else if String.eqb fn "XdrS32" then Some [gState; GPtr gS32]
  else if String.eqb fn "XdrU32" then Some [gState; GPtr gU32]
  else if String.eqb fn "XdrS64" then Some [gState; GPtr gS64]
  else if String.eqb fn "XdrU64" then Some [gState; GPtr gU64]
  else if String.eqb fn "XdrVarArray" then Some [gState; gInt; GPtr (GSlice gByte)]
  else if String.eqb fn "XdrArray" then Some [gState; GSlice gByte]
  else if String.eqb fn "XdrString" then Some [gState; gInt; GPtr gString]
  else None.
(** lib.go:41, 66: the methods of *XdrState called as statements. *)
Definition state_sig (m : string) : option (list gty) :=
  if String.eqb m "EncodingSetSize" then Some [GPtr gU32; gInt]
  else if String.eqb m "SetError" then Some [gString]
  else None.

Definition int_types : list string := ["uint32"; "int32"; "uint64"; "int64"; "int"; "byte"].
Definition in_range (b : string) (z : Z) : bool :=
  if String.eqb b "uint32" then (0 <=? z) && (z <=? 4294967295)
  else if String.eqb b "int32" then (-2147483648 <=? z) && (z <=? 2147483647)
  else if String.eqb b "uint64" then (0 <=? z) && (z <=? 18446744073709551615)
  else if mem b ["int64"; "int"] then (-9223372036854775808 <=? z) && (z <=? 9223372036854775807)
  else if String.eqb b "byte" then (0 <=? z) && (z <=? 255)
  else false.

(** What an expression denotes: a variable (addressable), another value, a constant integer
    (of no type when untyped), an untyped bool, nil, a string literal. *)
Inductive opk : Type :=
| KVar (t : gty) | KVal (t : gty) | KCon (t : option gty) (z : Z) | KBool | KNil | KStr.
Definition ktype (k : opk) : option gty :=
  match k with KVar t | KVal t => Some t | KCon t _ => t | _ => None end.

Definition locals : Type := list (string * gty).
(** The rest of the block is searched for a use of a variable, up to a declaration that hides it. *)
Fixpoint occ (x : string) (e : expr) : bool :=
  match e with
  | EVar y => String.eqb x y
  | ENum _ | EStr _ | ENew _ => false
  | EParen e | EDeref e | EAddr e | ESel e _ | EAll e | EConv _ e | ELen e | EMake _ e => occ x e
  | EIdx a b | ENe a b | EGt a b | ELt a b => occ x a || occ x b
  | EQuery y _ => String.eqb x y
  end.
Definition occ_block (f : stmt -> bool) (x : string) : list stmt -> bool :=
  fix go ss := match ss with
               | [] => false
               | SVar y t :: ss => negb (String.eqb x y) && go ss
               | SDef y e :: ss => occ x e || negb (String.eqb x y) && go ss
               | s :: ss => f s || go ss
               end.
Fixpoint occ_s (x : string) (s : stmt) : bool :=
  match s with
  | SPkg _ args => existsb (occ x) args
  | SMeth e _ args => occ x e || existsb (occ x) args
  | SVar _ _ => false
  | SDef _ e => occ x e
  | SAssign (EVar _) b => occ x b              (* an assignment to a variable is not a use of it *)
  | SAssign a b => occ x a || occ x b
  | SBlock ss => occ_block (occ_s x) x ss
  | SIf c a b => occ x c || occ_block (occ_s x) x a || match b with Some b => occ_block (occ_s x) x b | None => false end
  | SFor y e c ss => occ x e || negb (String.eqb x y) && (occ x c || occ_block (occ_s x) x ss)
  | SSwitch e cs => occ x e || existsb (fun c => match fst (fst c) with Some l => occ x l | None => false end || occ_block (occ_s x) x (snd (fst c))) cs
  end.
Definition uses (x : string) : list stmt -> bool := occ_block (occ_s x) x.

Section Types.
Variable G : gpkg.
Variable n : nat.

(** ** Types *)
Fixpoint under_n (n : nat) (t : gty) : option gty :=
  match t with
  | GNamed x => match n with O => None | S n => match lookup x (g_types G) with Some t => under_n n t | None => None end end
  | _ => Some t
  end.
(** The underlying type. *)
Definition under (t : gty) : option gty := under_n n t.
(** Identical types; array sizes are compared as constants. *)
Definition same_size (a b : string) : bool :=
  String.eqb a b || match size_val G a, size_val G b with Some x, Some y => x =? y | _, _ => false end.
Fixpoint same_ty (a b : gty) : bool :=
  match a, b with
  | GBasic x, GBasic y | GNamed x, GNamed y => String.eqb x y
  | GPtr a, GPtr b | GSlice a, GSlice b => same_ty a b
  | GArr s a, GArr r b => same_size s r && same_ty a b
  | GStruct l, GStruct m =>
      (fix go l m := match l, m with
                     | [], [] => true
                     | (f, a) :: l, (g, b) :: m => String.eqb f g && same_ty a b && go l m
                     | _, _ => false
                     end) l m
  | _, _ => false
  end.
Definition same_under (a b : gty) : bool :=
  match under a, under b with Some a, Some b => same_ty a b | _, _ => false end.
Definition has_name (t : gty) : bool := match t with GBasic _ | GNamed _ => true | _ => false end.
Definition is_int (t : gty) : bool := match under t with Some (GBasic b) => mem b int_types | _ => false end.
Definition is_basic (b : string) (t : gty) : bool := match under t with Some (GBasic c) => String.eqb b c | _ => false end.
Definition fits_in (z : Z) (t : gty) : bool := match under t with Some (GBasic b) => in_range b z | _ => false end.
Definition nilable (t : gty) : bool := match under t with Some (GPtr _) | Some (GSlice _) => true | _ => false end.

(** A name of the universe block or of the import that nothing hides. *)
Definition unhidden (L : locals) (x : string) : bool := negb (mem x (map fst L)) && negb (mem x (pkg_names G)).
(** A valid type where the variables [L] are in scope. *)
Fixpoint valid_ty (L : locals) (t : gty) : bool :=
  match t with
  | GBasic b => mem b basics && unhidden L b
  | GNamed x => match lookup x (g_types G) with Some _ => negb (mem x (map fst L)) | None => false end
  | GPtr t | GSlice t => valid_ty L t
  | GArr sz t =>
      match size_val G sz with Some k => (0 <=? k) && (k <=? 9223372036854775807) | None => false end &&
      (head_is is_digit sz || negb (mem sz (map fst L))) && valid_ty L t
  | GStruct fs =>
      nodupb (filter (fun f => negb (String.eqb f "_")) (map fst fs)) &&
      (fix go l := match l with [] => true | (_, t) :: l => valid_ty L t && go l end) fs
  end.
(** No type contains itself other than through a pointer or slice. *)
Fixpoint sized (n : nat) (t : gty) {struct n} : bool :=
  (fix go t := match t with
               | GNamed x => match n with O => false | S n => match lookup x (g_types G) with Some t => sized n t | None => false end end
               | GArr _ t => go t
               | GStruct fs => (fix all l := match l with [] => true | (_, t) :: l => go t && all l end) fs
               | GBasic _ | GPtr _ | GSlice _ => true
               end) t.

(** ** Constants *)
(** The type of a constant: [Some None] when it is untyped. *)
Fixpoint const_ty_n (m : nat) (x : string) : option (option gty) :=
  match m with
  | O => None
  | S m => match find_const x (g_consts G) with
           | Some c => match c_ty c with
                       | Some t => Some (Some t)
                       | None => if head_is is_digit (c_val c) then Some None else const_ty_n m (c_val c)
                       end
           | None => None
           end
  end.
Definition const_ty (x : string) : option (option gty) := const_ty_n (S (List.length (g_consts G))) x.

(** ** Expressions *)
Definition tc_ident (L : locals) (x : string) : option opk :=
  match lookup x L with
  | Some t => Some (KVar t)
  | None =>
      if mem x (pkg_names G) then
        match const_ty x, cval G x with Some t, Some z => Some (KCon t z) | _, _ => None end
      else if String.eqb x "nil" then Some KNil
      else if String.eqb x "true" || String.eqb x "false" then Some KBool
      else None
  end.

(** Assignability of an operand to a type. *)
Definition assignable (k : opk) (t : gty) : bool :=
  match k with
  | KVar s | KVal s => same_ty s t || same_under s t && negb (has_name s && has_name t)
  | KCon None z => fits_in z t
  | KCon (Some s) _ => same_ty s t
  | KBool => is_basic "bool" t
  | KNil => nilable t
  | KStr => is_basic "string" t
  end.
(** Conversion of an operand that is not a constant. *)
Definition converts (s t : gty) : bool :=
  same_ty s t || same_under s t || is_int s && is_int t ||
  match s, t with GPtr a, GPtr b => same_under a b | _, _ => false end.
Definition tc_conv (k : opk) (t : gty) : option opk :=
  match k with
  | KVar s | KVal s => if converts s t then Some (KVal t) else None
  | KCon None z => if fits_in z t then Some (KCon (Some t) z) else None
  | KCon (Some s) z => if is_int s && fits_in z t then Some (KCon (Some t) z) else None
  | KBool => if is_basic "bool" t then Some (KVal t) else None
  | KNil => if nilable t then Some (KVal t) else None
  | KStr => if is_basic "string" t then Some (KVal t) else None
  end.
(** An index or a length. *)
Definition index_ok (k : opk) : bool :=
  match k with
  | KVar t | KVal t => is_int t
  | KCon None z => (0 <=? z) && fits_in z gInt
  | KCon (Some t) z => is_int t && (0 <=? z)
  | _ => false
  end.
Definition ordered (t : gty) : bool := is_int t || is_basic "string" t.
Definition comparable (k : opk) (t : gty) : bool :=
  match under t with
  | Some (GBasic _) | Some (GPtr _) => true
  | Some (GSlice _) => match k with KNil => true | _ => false end
  | _ => false
  end.
Definition tc_cmp (ok : opk -> gty -> bool) (a b : opk) : bool :=
  match ktype a, ktype b with
  | Some t, Some s => (assignable b t || assignable a s) && ok b t && ok a s
  | Some t, None => assignable b t && ok b t
  | None, Some s => assignable a s && ok a s
  | None, None => match a, b with KCon None _, KCon None _ => true | _, _ => false end
  end.
Definition tc_field (k : opk) (f : string) : option opk :=
  if String.eqb f "_" then None else
  match ktype k with
  | None => None
  | Some t =>
      match under t with
      | Some (GStruct fs) => match lookup f fs with Some s => Some (match k with KVar _ => KVar s | _ => KVal s end) | None => None end
      | Some (GPtr b) => match under b with
                         | Some (GStruct fs) => match lookup f fs with Some s => Some (KVar s) | None => None end
                         | _ => None
                         end
      | _ => None
      end
  end.
Definition tc_index (k i : opk) : option opk :=
  if index_ok i then
    match ktype k with
    | None => None
    | Some t =>
        match under t with
        | Some (GSlice e) => Some (KVar e)
        | Some (GArr _ e) => Some (match k with KVar _ => KVar e | _ => KVal e end)
        | Some (GPtr b) => match under b with Some (GArr _ e) => Some (KVar e) | _ => None end
        | Some (GBasic b) => if String.eqb b "string" then Some (KVal gByte) else None
        | _ => None
        end
    end
  else None.
Definition tc_slice (k : opk) : option opk :=
  match ktype k with
  | None => None
  | Some t =>
      match under t with
      | Some (GSlice _) => Some (KVal t)
      | Some (GArr _ e) => match k with KVar _ => Some (KVal (GSlice e)) | _ => None end
      | Some (GPtr b) => match under b with Some (GArr _ e) => Some (KVal (GSlice e)) | _ => None end
      | Some (GBasic b) => if String.eqb b "string" then Some (KVal t) else None
      | _ => None
      end
  end.
Definition has_len (k : opk) : bool :=
  match k with
  | KStr => true
  | _ => match ktype k with
         | None => false
         | Some t => match under t with
                     | Some (GSlice _) | Some (GArr _ _) => true
                     | Some (GPtr b) => match under b with Some (GArr _ _) => true | _ => false end
                     | Some (GBasic b) => String.eqb b "string"
                     | _ => false
                     end
         end
  end.

Fixpoint tc (L : locals) (e : expr) : option opk :=
  match e with
  | EVar x => tc_ident L x
  | ENum s => option_map (KCon None) (num_val s)
  | EStr _ => Some KStr
  | EParen e => tc L e
  | EDeref e =>
      do k <- tc L e ;
      do t <- ktype k ;
      match under t with Some (GPtr b) => Some (KVar b) | _ => None end
  | EAddr e => do k <- tc L e ; match k with KVar t => Some (KVal (GPtr t)) | _ => None end
  | ESel e f => do k <- tc L e ; tc_field k f
  | EIdx e i => do k <- tc L e ; do j <- tc L i ; tc_index k j
  | EAll e => do k <- tc L e ; tc_slice k
  | EConv t e => do k <- tc L e ; if valid_ty L t then tc_conv k t else None
  | ELen e => do k <- tc L e ; if unhidden L "len" && has_len k then Some (KVal gInt) else None
  | EMake t e =>
      do k <- tc L e ;
      if unhidden L "make" && valid_ty L t && index_ok k && match under t with Some (GSlice _) => true | _ => false end then Some (KVal t) else None
  | ENew t => if unhidden L "new" && valid_ty L t then Some (KVal (GPtr t)) else None
  | EQuery x m =>
      match lookup x L with
      | Some t => if same_ty t gState && mem m ["Encoding"; "Decoding"] then Some (KVal gBool) else None
      | None => None
      end
  | ENe a b => do k <- tc L a ; do j <- tc L b ; if tc_cmp comparable k j then Some KBool else None
  | EGt a b | ELt a b => do k <- tc L a ; do j <- tc L b ; if tc_cmp (fun _ => ordered) k j then Some KBool else None
  end.

(** ** Statements *)
Fixpoint tc_args (L : locals) (args : list expr) (ts : list gty) : bool :=
  match args, ts with
  | [], [] => true
  | e :: args, t :: ts => match tc L e with Some k => assignable k t | None => false end && tc_args L args ts
  | _, _ => false
  end.
Definition tc_cond (L : locals) (c : expr) : bool :=
  match tc L c with
  | Some KBool => true
  | Some k => match ktype k with Some t => is_basic "bool" t | None => false end
  | None => false
  end.
(** The type of the variable declared by x := e. *)
Definition def_ty (k : opk) : option gty :=
  match k with
  | KVar t | KVal t | KCon (Some t) _ => Some t
  | KCon None z => if fits_in z gInt then Some gInt else None
  | KBool => Some gBool
  | KStr => Some gString
  | KNil => None
  end.
(** [cur]: the names declared in this block so far. *)
Definition tc_block (f : locals -> stmt -> bool) : locals -> list string -> list stmt -> bool :=
  fix go L cur ss :=
    match ss with
    | [] => true
    | SVar x t :: ss =>
        negb (mem x ("_" :: cur)) && valid_ty L t && uses x ss && go ((x, t) :: L) (x :: cur) ss
    | SDef x e :: ss =>
        match tc L e with
        | Some k => match def_ty k with
                    | Some t => negb (mem x ("_" :: cur)) && uses x ss && go ((x, t) :: L) (x :: cur) ss
                    | None => false
                    end
        | None => false
        end
    | s :: ss => f L s && go L cur ss
    end.
(** The constant integers among the labels. *)
Fixpoint label_vals (L : locals) (cs : list (option expr * list stmt * bool)) : list Z :=
  match cs with
  | [] => []
  | (Some l, _, _) :: cs => match tc L l with Some (KCon _ z) => [z] | _ => [] end ++ label_vals L cs
  | (None, _, _) :: cs => label_vals L cs
  end.
Fixpoint distinct (l : list Z) : bool := match l with [] => true | x :: l => negb (existsb (Z.eqb x) l) && distinct l end.
(** Only a last clause must not fall through. *)
Fixpoint falls_ok (cs : list (option expr * list stmt * bool)) : bool :=
  match cs with [] => true | [(_, f)] => negb f | _ :: cs => falls_ok cs end.
Definition defaults (cs : list (option expr * list stmt * bool)) : list (option expr * list stmt * bool) :=
  filter (fun c => match fst (fst c) with None => true | Some _ => false end) cs.
Fixpoint tc_s (L : locals) (s : stmt) : bool :=
  match s with
  | SPkg fn args => unhidden L "xdr" && match lib_sig fn with Some ts => tc_args L args ts | None => false end
  | SMeth e m args =>
      match tc L e with
      | Some k =>
          match k with
          | KVar (GNamed x) | KVar (GPtr (GNamed x)) | KVal (GPtr (GNamed x)) =>
              if same_ty (GPtr (GNamed x)) gState then match state_sig m with Some ts => tc_args L args ts | None => false end
              else mem x (map fst (g_meths G)) && String.eqb m "Xdr" && tc_args L args [gState]
          | _ => false
          end
      | None => false
      end
  | SVar _ _ | SDef _ _ => false
  | SAssign a b =>
      match tc L a, tc L b with
      | Some (KVar t), Some k => assignable k t
      | _, _ => false
      end
  | SBlock ss => tc_block tc_s L [] ss
  | SIf c a b => tc_cond L c && tc_block tc_s L [] a && match b with Some b => tc_block tc_s L [] b | None => true end
  | SFor x e c ss =>
      match tc L e with
      | Some k => match def_ty k with
                  | Some t => negb (String.eqb x "_") && is_int t && (occ x c || uses x ss) && tc_cond ((x, t) :: L) c && tc_block tc_s ((x, t) :: L) [] ss
                  | None => false
                  end
      | None => false
      end
  | SSwitch e cs =>
      match tc L e with
      | Some k =>
          match ktype k with
          | Some t =>
              comparable KBool t &&
              forallb (fun c => match fst (fst c) with
                                | Some l => match tc L l with Some j => assignable j t | None => false end
                                | None => true
                                end && tc_block tc_s L [] (snd (fst c))) cs &&
              distinct (label_vals L cs) && falls_ok cs && (List.length (defaults cs) <=? 1)%nat
          | None => false
          end
      | None => false
      end
  end.

(** ** The package *)
Definition tc_type (d : tydecl) : bool := valid_ty [] (snd d) && sized n (GNamed (fst d)).
(** A constant's value has its type (out.go:381-387). *)
Definition tc_const (c : cdecl) : bool :=
  match tc [] (val_expr (c_val c)) with
  | Some (KCon t z) =>
      match c_ty c with
      | None => true
      | Some s => valid_ty [] s && is_int s && assignable (KCon t z) s
      end && match cval G (c_name c) with Some _ => true | None => false end
  | _ => false
  end.
(** The names a method of [x] must not have: those of the fields. *)
Definition fields_of (x : string) : list string :=
  match under (GNamed x) with Some (GStruct fs) => map fst fs | _ => [] end.
Definition tc_method (m : method) : bool :=
  match under (GNamed (fst m)) with Some (GPtr _) | None => false | _ => true end &&
  negb (mem "Xdr" (fields_of (fst m))) &&
  tc_block tc_s [("v", GPtr (GNamed (fst m))); ("xs", gState)] ["v"; "xs"] (snd m).
Definition check : bool :=
  nodupb (pkg_names G) && forallb (fun x => negb (mem x ["xdr"; "init"; "_"])) (pkg_names G) && nodupb (map fst (g_meths G)) &&
  forallb tc_type (g_types G) && forallb tc_const (g_consts G) && forallb tc_method (g_meths G).
End Types.

(** The compiler accepts the package. *)
Definition well_typed (G : gpkg) : Prop := exists n, check G n = true.
