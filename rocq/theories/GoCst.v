(** The grammar of the part of Go the generator emits (Go specification: Types, Expressions,
    Statements, Declarations): syntax trees, the token sequences they have, and a parser.
    Names are not resolved here: a conversion is a call, a pointer type a dereference.
    Semicolons may be left out before a closing brace. *)
From Verif Require Import GoLex XLex Gram GParse.
Open Scope string_scope.
Open Scope list_scope.

(** Types and expressions. *)
Inductive cx : Type :=
| XId (x : string) | XInt (s : string) | XLit (s : string)
| XParen (c : cx) | XUn (o : string) (c : cx) | XBin (o : string) (a b : cx)
| XSel (c : cx) (x : string)            (* c.x *)
| XIdx (c i : cx) | XFull (c : cx)      (* c[i], c[:] *)
| XCall (f : cx) (args : list cx)
| XSlice (t : cx) | XArr (n t : cx) | XStruct (fs : list (string * cx))
| XComp (t : cx) (es : list (option string * cx)).   (* t{...} *)

Inductive cs : Type :=
| YExpr (c : cx)
| YVar (x : string) (t : cx)
| YDef (x : string) (c : cx)            (* x := c *)
| YSet (a b : cx)
| YBlock (ss : list cs)
| YIf (c : cx) (a : list cs) (b : option (list cs))
| YFor (x : string) (init cond : cx) (y : string) (ss : list cs)   (* for x := init; cond; y++ *)
| YSwitch (c : cx) (cls : list (option cx * list cs))              (* None: default *)
| YFall
| YRet (es : list cx).

Inductive cres : Type := RNone | RType (t : cx) | RNamed (l : list (string * cx)).
Inductive ctop : Type :=
| ZPackage (x : string)
| ZImport (s : string)
| ZType (x : string) (t : cx)
| ZIface (x : string) (ms : list (string * option cx * option cx))
| ZConst (x : string) (t : option cx) (v : cx)
| ZFunc (recv : option (string * cx)) (name : string) (params : list (string * cx)) (res : cres) (body : list cs).

(** ** Token sequences *)
Inductive T_sz : cx -> gtok -> Prop :=
| sz_id x : T_sz (XId x) (GIdent x)
| sz_int s : T_sz (XInt s) (GInt s).
Inductive T_ty : cx -> list gtok -> Prop :=
| ty_id x : T_ty (XId x) [GIdent x]
| ty_qual p x : T_ty (XSel (XId p) x) [GIdent p; GOp "."; GIdent x]
| ty_ptr t ts : T_ty t ts -> T_ty (XUn "*" t) (GOp "*" :: ts)
| ty_slice t ts : T_ty t ts -> T_ty (XSlice t) (GOp "[" :: GOp "]" :: ts)
| ty_arr n ns t ts : T_sz n ns -> T_ty t ts -> T_ty (XArr n t) (GOp "[" :: ns :: GOp "]" :: ts)
| ty_struct fs ts : T_fields fs ts -> T_ty (XStruct fs) (GKw "struct" :: GOp "{" :: ts ++ [GOp "}"])
with T_fields : list (string * cx) -> list gtok -> Prop :=
| fs_nil : T_fields [] []
| fs_last x t ts : T_ty t ts -> T_fields [(x, t)] (GIdent x :: ts)
| fs_cons x t ts fs us : T_ty t ts -> T_fields fs us -> T_fields ((x, t) :: fs) (GIdent x :: ts ++ GSemi :: us).

(** [T_prim], [T_un], [T_ex]: primary, unary and binary expressions. *)
Inductive T_prim : cx -> list gtok -> Prop :=
| pr_id x : T_prim (XId x) [GIdent x]
| pr_int s : T_prim (XInt s) [GInt s]
| pr_lit s : T_prim (XLit s) [GStr s]
| pr_paren c ts : T_ex c ts -> T_prim (XParen c) (GOp "(" :: ts ++ [GOp ")"])
| pr_sel c ts x : T_prim c ts -> T_prim (XSel c x) (ts ++ [GOp "."; GIdent x])
| pr_idx c ts i us : T_prim c ts -> T_ex i us -> T_prim (XIdx c i) (ts ++ GOp "[" :: us ++ [GOp "]"])
| pr_full c ts : T_prim c ts -> T_prim (XFull c) (ts ++ [GOp "["; GOp ":"; GOp "]"])
| pr_call f ts l us : T_prim f ts -> T_args l us -> T_prim (XCall f l) (ts ++ GOp "(" :: us ++ [GOp ")"])
with T_un : cx -> list gtok -> Prop :=
| un_prim c ts : T_prim c ts -> T_un c ts
| un_slice t ts : T_ty t ts -> T_un (XSlice t) (GOp "[" :: GOp "]" :: ts)
| un_struct fs ts : T_fields fs ts -> T_un (XStruct fs) (GKw "struct" :: GOp "{" :: ts ++ [GOp "}"])
| un_op o c ts : In o ["*"; "&"; "-"] -> T_un c ts -> T_un (XUn o c) (GOp o :: ts)
with T_ex : cx -> list gtok -> Prop :=
| ex_un c ts : T_un c ts -> T_ex c ts
| ex_bin o a ts b us : In o ["!="; ">"; "<"] -> T_un a ts -> T_un b us -> T_ex (XBin o a b) (ts ++ GOp o :: us)
with T_args : list cx -> list gtok -> Prop :=
| ar_nil : T_args [] []
| ar_one c ts : T_ex c ts -> T_args [c] ts
| ar_cons c ts l us : T_ex c ts -> l <> [] -> T_args l us -> T_args (c :: l) (ts ++ GOp "," :: us).

(** Right-hand sides may also be composite literals or their addresses. *)
Definition lit_type (c : cx) : bool :=
  match c with XId _ | XSel (XId _) _ | XSlice _ | XArr _ _ | XStruct _ => true | _ => false end.
Inductive T_comp : cx -> list gtok -> Prop :=
| co_comp t ts es us : lit_type t = true -> T_ty t ts -> T_elems es us -> T_comp (XComp t es) (ts ++ GOp "{" :: us ++ [GOp "}"])
with T_elems : list (option string * cx) -> list gtok -> Prop :=
| el_nil : T_elems [] []
| el_id x : T_elems [(None, XId x)] [GIdent x]
| el_key k c ts l us : T_ex c ts -> T_elems l us -> T_elems ((Some k, c) :: l) (GIdent k :: GOp ":" :: ts ++ GOp "," :: us)
| el_comp c ts l us : T_comp c ts -> T_elems l us -> T_elems ((None, c) :: l) (ts ++ GOp "," :: us).
Inductive T_rhs : cx -> list gtok -> Prop :=
| rh_ex c ts : T_ex c ts -> T_rhs c ts
| rh_comp c ts : T_comp c ts -> T_rhs c ts
| rh_addr c ts : T_comp c ts -> T_rhs (XUn "&" c) (GOp "&" :: ts).

Inductive T_rhss : list cx -> list gtok -> Prop :=
| rs_one c ts : T_rhs c ts -> T_rhss [c] ts
| rs_cons c ts l us : T_rhs c ts -> l <> [] -> T_rhss l us -> T_rhss (c :: l) (ts ++ GOp "," :: us).

Inductive T_stmt : cs -> list gtok -> Prop :=
| st_expr c ts : T_ex c ts -> T_stmt (YExpr c) ts
| st_var x t ts : T_ty t ts -> T_stmt (YVar x t) (GKw "var" :: GIdent x :: ts)
| st_def x c ts : T_rhs c ts -> T_stmt (YDef x c) (GIdent x :: GOp ":=" :: ts)
| st_set a ts b us : T_ex a ts -> T_rhs b us -> T_stmt (YSet a b) (ts ++ GOp "=" :: us)
| st_block ss ts : T_body ss ts -> T_stmt (YBlock ss) (GOp "{" :: ts ++ [GOp "}"])
| st_if c ts a us : T_ex c ts -> T_body a us -> T_stmt (YIf c a None) (GKw "if" :: ts ++ GOp "{" :: us ++ [GOp "}"])
| st_else c ts a us b vs : T_ex c ts -> T_body a us -> T_body b vs ->
    T_stmt (YIf c a (Some b)) (GKw "if" :: ts ++ GOp "{" :: us ++ GOp "}" :: GKw "else" :: GOp "{" :: vs ++ [GOp "}"])
| st_for x c0 t0 c t1 y ss us : T_ex c0 t0 -> T_ex c t1 -> T_body ss us ->
    T_stmt (YFor x c0 c y ss) (GKw "for" :: GIdent x :: GOp ":=" :: t0 ++ GSemi :: t1 ++ GSemi :: GIdent y :: GOp "++" :: GOp "{" :: us ++ [GOp "}"])
| st_switch c ts l us : T_ex c ts -> T_cls l us -> T_stmt (YSwitch c l) (GKw "switch" :: ts ++ GOp "{" :: us ++ [GOp "}"])
| st_fall : T_stmt YFall [GKw "fallthrough"]
| st_ret0 : T_stmt (YRet []) [GKw "return"]
| st_ret l ts : T_rhss l ts -> T_stmt (YRet l) (GKw "return" :: ts)
(** Each statement followed by a semicolon. *)
with T_stmts : list cs -> list gtok -> Prop :=
| ss_nil : T_stmts [] []
| ss_cons s ts ss us : T_stmt s ts -> T_stmts ss us -> T_stmts (s :: ss) (ts ++ GSemi :: us)
with T_body : list cs -> list gtok -> Prop :=
| bo_all ss ts : T_stmts ss ts -> T_body ss ts
| bo_last ss us s ts : T_stmts ss us -> T_stmt s ts -> T_body (ss ++ [s]) (us ++ ts)
with T_cls : list (option cx * list cs) -> list gtok -> Prop :=
| cl_nil : T_cls [] []
| cl_case c ts ss us l vs : T_ex c ts -> T_stmts ss us -> T_cls l vs ->
    T_cls ((Some c, ss) :: l) (GKw "case" :: ts ++ GOp ":" :: us ++ vs)
| cl_def ss us l vs : T_stmts ss us -> T_cls l vs -> T_cls ((None, ss) :: l) (GKw "default" :: GOp ":" :: us ++ vs).

(** Method of an interface: [name(arg) res]. *)
Inductive T_opt : option cx -> list gtok -> Prop := op_no : T_opt None [] | op_yes t ts : T_ty t ts -> T_opt (Some t) ts.
Inductive T_meths : list (string * option cx * option cx) -> list gtok -> Prop :=
| me_nil : T_meths [] []
| me_cons x a ts r us l vs : T_opt a ts -> T_opt r us -> T_meths l vs ->
    T_meths ((x, a, r) :: l) (GIdent x :: GOp "(" :: ts ++ GOp ")" :: us ++ GSemi :: vs).
Inductive T_params : list (string * cx) -> list gtok -> Prop :=
| pa_one x t ts : T_ty t ts -> T_params [(x, t)] (GIdent x :: ts)
| pa_cons x t ts l us : T_ty t ts -> l <> [] -> T_params l us -> T_params ((x, t) :: l) (GIdent x :: ts ++ GOp "," :: us).
Inductive T_res : cres -> list gtok -> Prop :=
| re_no : T_res RNone []
| re_ty t ts : T_ty t ts -> T_res (RType t) ts
| re_named l ts : T_params l ts -> T_res (RNamed l) (GOp "(" :: ts ++ [GOp ")"]).
Inductive T_recv : option (string * cx) -> list gtok -> Prop :=
| rv_no : T_recv None []
| rv_yes x t ts : T_ty t ts -> T_recv (Some (x, t)) (GOp "(" :: GIdent x :: ts ++ [GOp ")"]).
Inductive T_top : ctop -> list gtok -> Prop :=
| to_pkg x : T_top (ZPackage x) [GKw "package"; GIdent x]
| to_imp s : T_top (ZImport s) [GKw "import"; GStr s]
| to_type x t ts : T_ty t ts -> T_top (ZType x t) (GKw "type" :: GIdent x :: ts)
| to_iface x ms ts : T_meths ms ts -> T_top (ZIface x ms) (GKw "type" :: GIdent x :: GKw "interface" :: GOp "{" :: ts ++ [GOp "}"])
| to_const x t ts v us : T_opt t ts -> T_sz v us -> T_top (ZConst x t v) (GKw "const" :: GIdent x :: ts ++ [GOp "="; us])
| to_func rv rs x ps ts r us b vs : T_recv rv rs -> T_params ps ts -> T_res r us -> T_body b vs ->
    T_top (ZFunc rv x ps r b) (GKw "func" :: rs ++ GIdent x :: GOp "(" :: ts ++ GOp ")" :: us ++ GOp "{" :: vs ++ [GOp "}"]).
(** A file: each declaration is followed by a semicolon. *)
Inductive T_file : list ctop -> list gtok -> Prop :=
| fi_nil : T_file [] []
| fi_cons d ts l us : T_top d ts -> T_file l us -> T_file (d :: l) (ts ++ GSemi :: us).

(** ** The parser; [n] bounds nesting and lengths *)
Definition gparser (A : Type) : Type := list gtok -> option (A * list gtok).
Definition pop_ (o : string) (ts : list gtok) : option (list gtok) :=
  match ts with GOp p :: r => if String.eqb p o then Some r else None | _ => None end.
Definition pkw (w : string) (ts : list gtok) : option (list gtok) :=
  match ts with GKw p :: r => if String.eqb p w then Some r else None | _ => None end.
Definition pid : gparser string := fun ts => match ts with GIdent x :: r => Some (x, r) | _ => None end.
Definition psemi (ts : list gtok) : option (list gtok) := match ts with GSemi :: r => Some r | _ => None end.
Definition psz : gparser cx := fun ts =>
  match ts with GIdent x :: r => Some (XId x, r) | GInt s :: r => Some (XInt s, r) | _ => None end.

Fixpoint p_ty (n : nat) : gparser cx := fun ts =>
  match n with
  | O => None
  | S n =>
      match ts with
      | GIdent x :: r =>
          match pop_ "." r with Some r1 => do (y, r2) <- pid r1 ; Some (XSel (XId x) y, r2) | None => Some (XId x, r) end
      | GKw w :: r => if String.eqb w "struct" then
                        do r <- pop_ "{" r ; do (fs, r) <- p_fields n r ; do r <- pop_ "}" r ; Some (XStruct fs, r)
                      else None
      | GOp o :: r =>
          if String.eqb o "*" then do (t, r) <- p_ty n r ; Some (XUn "*" t, r)
          else if String.eqb o "[" then
            match pop_ "]" r with
            | Some r => do (t, r) <- p_ty n r ; Some (XSlice t, r)
            | None => do (s, r) <- psz r ; do r <- pop_ "]" r ; do (t, r) <- p_ty n r ; Some (XArr s t, r)
            end
          else None
      | _ => None
      end
  end
with p_fields (n : nat) : gparser (list (string * cx)) := fun ts =>
  match n with
  | O => None
  | S n =>
      match pop_ "}" ts with
      | Some _ => Some ([], ts)
      | None =>
          do (x, r) <- pid ts ; do (t, r) <- p_ty n r ;
          match psemi r with Some r => do (l, r) <- p_fields n r ; Some ((x, t) :: l, r) | None => Some ([(x, t)], r) end
      end
  end.

Definition is_rel (o : string) : bool := mem o ["!="; ">"; "<"].

(** [lit]: composite literals are allowed (not in the header of if, for and switch). *)
Fixpoint p_un (n : nat) (lit : bool) : gparser cx := fun ts =>
  match n with
  | O => None
  | S n =>
      match ts with
      | GOp o :: r =>
          if mem o ["*"; "&"; "-"] then do (c, r) <- p_un n lit r ; Some (XUn o c, r)
          else if String.eqb o "(" then do (c, r) <- p_ex n true r ; do r <- pop_ ")" r ; p_post n lit (XParen c) r
          else if String.eqb o "[" then do (t, r) <- p_ty n ts ; p_post n lit t r
          else None
      | GKw _ :: _ => do (t, r) <- p_ty n ts ; p_post n lit t r
      | GIdent x :: r => p_post n lit (XId x) r
      | GInt s :: r => p_post n lit (XInt s) r
      | GStr s :: r => p_post n lit (XLit s) r
      | _ => None
      end
  end
with p_post (n : nat) (lit : bool) (c : cx) : gparser cx := fun ts =>
  match n with
  | O => None
  | S n =>
      match pop_ "." ts with
      | Some r => do (x, r) <- pid r ; p_post n lit (XSel c x) r
      | None =>
          match pop_ "[" ts with
          | Some r =>
              match pop_ ":" r with
              | Some r => do r <- pop_ "]" r ; p_post n lit (XFull c) r
              | None => do (i, r) <- p_ex n true r ; do r <- pop_ "]" r ; p_post n lit (XIdx c i) r
              end
          | None =>
              match pop_ "(" ts with
              | Some r => do (l, r) <- p_args n r ; do r <- pop_ ")" r ; p_post n lit (XCall c l) r
              | None =>
                  match pop_ "{" ts with
                  | Some r => if lit && lit_type c then do (l, r) <- p_elems n r ; do r <- pop_ "}" r ; p_post n lit (XComp c l) r
                              else Some (c, ts)
                  | None => Some (c, ts)
                  end
              end
          end
      end
  end
with p_ex (n : nat) (lit : bool) : gparser cx := fun ts =>
  match n with
  | O => None
  | S n =>
      do (a, r) <- p_un n lit ts ;
      match r with
      | GOp o :: r1 => if is_rel o then do (b, r2) <- p_un n lit r1 ; Some (XBin o a b, r2) else Some (a, r)
      | _ => Some (a, r)
      end
  end
with p_args (n : nat) : gparser (list cx) := fun ts =>
  match n with
  | O => None
  | S n =>
      match pop_ ")" ts with
      | Some _ => Some ([], ts)
      | None => do (c, r) <- p_ex n true ts ;
                match pop_ "," r with Some r => do (l, r) <- p_args n r ; Some (c :: l, r) | None => Some ([c], r) end
      end
  end
with p_elems (n : nat) : gparser (list (option string * cx)) := fun ts =>
  match n with
  | O => None
  | S n =>
      match pop_ "}" ts with
      | Some _ => Some ([], ts)
      | None =>
          let '(k, r) := match ts with GIdent x :: GOp o :: r => if String.eqb o ":" then (Some x, r) else (None, ts) | _ => (None, ts) end in
          do (c, r) <- p_ex n true r ;
          match pop_ "," r with Some r => do (l, r) <- p_elems n r ; Some ((k, c) :: l, r) | None => Some ([(k, c)], r) end
      end
  end.
Fixpoint p_exs (n : nat) : gparser (list cx) := fun ts =>
  match n with
  | O => None
  | S n => do (c, r) <- p_ex n true ts ;
           match pop_ "," r with Some r => do (l, r) <- p_exs n r ; Some (c :: l, r) | None => Some ([c], r) end
  end.

(** A statement list ends before a closing brace or the next clause. *)
Definition ends_list (ts : list gtok) : bool :=
  match ts with GOp o :: _ => String.eqb o "}" | GKw w :: _ => mem w ["case"; "default"] | _ => false end.
Fixpoint p_stmt (n : nat) : gparser cs := fun ts =>
  match n with
  | O => None
  | S n =>
      let simple :=
        do (c, r) <- p_ex n true ts ;
        match r with
        | GOp o :: r1 =>
            if String.eqb o ":=" then match c with XId x => do (e, r2) <- p_ex n true r1 ; Some (YDef x e, r2) | _ => None end
            else if String.eqb o "=" then do (e, r2) <- p_ex n true r1 ; Some (YSet c e, r2)
            else Some (YExpr c, r)
        | _ => Some (YExpr c, r)
        end in
      match ts with
      | GKw w :: r =>
          if String.eqb w "var" then do (x, r) <- pid r ; do (t, r) <- p_ty n r ; Some (YVar x t, r)
          else if String.eqb w "if" then
            do (c, r) <- p_ex n false r ; do r <- pop_ "{" r ; do (a, r) <- p_stmts n r ; do r <- pop_ "}" r ;
            match pkw "else" r with
            | Some r => do r <- pop_ "{" r ; do (b, r) <- p_stmts n r ; do r <- pop_ "}" r ; Some (YIf c a (Some b), r)
            | None => Some (YIf c a None, r)
            end
          else if String.eqb w "for" then
            do (x, r) <- pid r ; do r <- pop_ ":=" r ; do (c0, r) <- p_ex n false r ; do r <- psemi r ; do (c, r) <- p_ex n false r ; do r <- psemi r ;
            do (y, r) <- pid r ; do r <- pop_ "++" r ; do r <- pop_ "{" r ; do (ss, r) <- p_stmts n r ; do r <- pop_ "}" r ; Some (YFor x c0 c y ss, r)
          else if String.eqb w "switch" then
            do (c, r) <- p_ex n false r ; do r <- pop_ "{" r ; do (l, r) <- p_cls n r ; do r <- pop_ "}" r ; Some (YSwitch c l, r)
          else if String.eqb w "fallthrough" then Some (YFall, r)
          else if String.eqb w "return" then
            match r with
            | GSemi :: _ => Some (YRet [], r)
            | GOp o :: _ => if String.eqb o "}" then Some (YRet [], r) else do (l, r) <- p_exs n r ; Some (YRet l, r)
            | _ => do (l, r) <- p_exs n r ; Some (YRet l, r)
            end
          else simple
      | GOp o :: r =>
          if String.eqb o "{" then do (ss, r) <- p_stmts n r ; do r <- pop_ "}" r ; Some (YBlock ss, r) else simple
      | _ => simple
      end
  end
with p_stmts (n : nat) : gparser (list cs) := fun ts =>
  match n with
  | O => None
  | S n =>
      if ends_list ts then Some ([], ts)
      else do (s, r) <- p_stmt n ts ;
           match psemi r with Some r => do (ss, r) <- p_stmts n r ; Some (s :: ss, r) | None => Some ([s], r) end
  end
with p_cls (n : nat) : gparser (list (option cx * list cs)) := fun ts =>
  match n with
  | O => None
  | S n =>
      match pkw "case" ts with
      | Some r => do (c, r) <- p_ex n true r ; do r <- pop_ ":" r ; do (ss, r) <- p_stmts n r ; do (l, r) <- p_cls n r ; Some ((Some c, ss) :: l, r)
      | None =>
          match pkw "default" ts with
          | Some r => do r <- pop_ ":" r ; do (ss, r) <- p_stmts n r ; do (l, r) <- p_cls n r ; Some ((None, ss) :: l, r)
          | None => Some ([], ts)
          end
      end
  end.

Fixpoint p_meths (n : nat) : gparser (list (string * option cx * option cx)) := fun ts =>
  match n with
  | O => None
  | S n =>
      match pop_ "}" ts with
      | Some _ => Some ([], ts)
      | None =>
          do (x, r) <- pid ts ; do r <- pop_ "(" r ;
          do (a, r) <- match pop_ ")" r with Some r => Some (None, r) | None => do (t, r) <- p_ty n r ; do r <- pop_ ")" r ; Some (Some t, r) end ;
          do (b, r) <- match psemi r with Some _ => Some (None, r) | None => do (t, r) <- p_ty n r ; Some (Some t, r) end ;
          do r <- psemi r ; do (l, r) <- p_meths n r ; Some ((x, a, b) :: l, r)
      end
  end.
Fixpoint p_params (n : nat) : gparser (list (string * cx)) := fun ts =>
  match n with
  | O => None
  | S n => do (x, r) <- pid ts ; do (t, r) <- p_ty n r ;
           match pop_ "," r with Some r => do (l, r) <- p_params n r ; Some ((x, t) :: l, r) | None => Some ([(x, t)], r) end
  end.
Definition p_top (n : nat) : gparser ctop := fun ts =>
  match ts with
  | GKw w :: r =>
      if String.eqb w "package" then do (x, r) <- pid r ; Some (ZPackage x, r)
      else if String.eqb w "import" then match r with GStr s :: r => Some (ZImport s, r) | _ => None end
      else if String.eqb w "type" then
        do (x, r) <- pid r ;
        match pkw "interface" r with
        | Some r => do r <- pop_ "{" r ; do (ms, r) <- p_meths n r ; do r <- pop_ "}" r ; Some (ZIface x ms, r)
        | None => do (t, r) <- p_ty n r ; Some (ZType x t, r)
        end
      else if String.eqb w "const" then
        do (x, r) <- pid r ;
        do (t, r) <- match pop_ "=" r with Some _ => Some (None, r) | None => do (t, r) <- p_ty n r ; Some (Some t, r) end ;
        do r <- pop_ "=" r ; do (v, r) <- psz r ; Some (ZConst x t v, r)
      else if String.eqb w "func" then
        do (rv, r) <- match pop_ "(" r with
                      | Some r => do (x, r) <- pid r ; do (t, r) <- p_ty n r ; do r <- pop_ ")" r ; Some (Some (x, t), r)
                      | None => Some (None, r)
                      end ;
        do (x, r) <- pid r ; do r <- pop_ "(" r ; do (ps, r) <- p_params n r ; do r <- pop_ ")" r ;
        do (res, r) <- match pop_ "{" r with
                       | Some _ => Some (RNone, r)
                       | None =>
                           match pop_ "(" r with
                           | Some r => do (l, r) <- p_params n r ; do r <- pop_ ")" r ; Some (RNamed l, r)
                           | None => do (t, r) <- p_ty n r ; Some (RType t, r)
                           end
                       end ;
        do r <- pop_ "{" r ; do (b, r) <- p_stmts n r ; do r <- pop_ "}" r ; Some (ZFunc rv x ps res b, r)
      else None
  | _ => None
  end.
Fixpoint p_file (n : nat) (ts : list gtok) : option (list ctop) :=
  match n with
  | O => None
  | S n => match ts with
           | [] => Some []
           | _ => do (d, r) <- p_top n ts ; do r <- psemi r ; do l <- p_file n r ; Some (d :: l)
           end
  end.
