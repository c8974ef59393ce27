(** Model of /repo/out.go and of the flags and file headers of /repo/main.go: the exact text
    written, before gofmt.  [None] is a panic of the generator. *)
From Verif Require Import GoLex XLex Gram GParse.
Open Scope string_scope.
Open Scope list_scope.

Notation "a +++ b" := (String.append a b) (at level 60, right associativity).
Definition NL : string := String nl EmptyString.
Definition DQ : string := String dquote EmptyString.

(** out.go:8-17 [i]; ToUpper of the first byte. *)
Definition cap (ident : string) : string :=
  if String.eqb ident "TRUE" then "true"
  else if String.eqb ident "FALSE" then "false"
  else match ident with String c r => String (upper c) r | EmptyString => EmptyString end.

Section OptCat.
Context {A : Type}.
Variable f : A -> option string.
(** The results of [f] one after another. *)
Fixpoint cat_opt (l : list A) : option string :=
  match l with
  | [] => Some ""
  | a :: l => do s <- f a ; do r <- cat_opt l ; Some (s +++ r)
  end.
End OptCat.

(** ** goType *)
Fixpoint goType (t : typespec) : option string :=
  match t with
  | typeInt u => Some (if u then "uint32" else "int32")              (* 187-193 *)
  | typeHyper u => Some (if u then "uint64" else "int64")            (* 207-213 *)
  | typeFloat => Some "float32"                                      (* 225 *)
  | typeDouble => Some "float64"                                     (* 230 *)
  | typeQuadruple => None                                            (* 235 *)
  | typeBool => Some "bool"                                          (* 240 *)
  | typeEnum _ => Some "int32"                                       (* 249 *)
  | typeStruct items =>                                              (* 265-272 *)
      do r <- (fix go l := match l with [] => Some "" | d :: l => do a <- nameGotype d ; do b <- go l ; Some (a +++ b) end) items ;
      Some ("struct { " +++ r +++ "}")
  | typeUnion sw cases def =>                                        (* 290-301 *)
      do a <- nameGotype sw ;
      do b <- (fix go (l : list (list string * decl)) := match l with [] => Some "" | c :: l => do a <- nameGotype (snd c) ; do b <- go l ; Some (a +++ b) end) cases ;
      do c <- match def with Some d => nameGotype d | None => Some "" end ;
      Some ("struct { " +++ a +++ b +++ c +++ "}")
  | typeIdent n => Some (cap n)                                      (* 341 *)
  end
with declGoType (t : declType) : option string :=
  match t with
  | declTypeTypespec t => goType t                                   (* 38-40 *)
  | declTypeArray t sz => do r <- goType t ; Some ("[" +++ sz +++ "]" +++ r)   (* 51-53 *)
  | declTypeVarArray t _ => do r <- goType t ; Some ("[]" +++ r)     (* 68-70 *)
  | declTypeOpaqueArray sz => Some ("[" +++ sz +++ "]byte")          (* 96-98 *)
  | declTypeOpaqueVarArray _ => Some "[]byte"                        (* 108-110 *)
  | declTypeString _ => Some "string"                                (* 124-126 *)
  | declTypePtr t => do r <- goType t ; Some ("*" +++ r)             (* 140-142 *)
  end
with nameGotype (d : decl) : option string :=                        (* 252-259 declToNameGotype *)
  match d with
  | declVoid => Some ""
  | declName t n => do r <- declGoType t ; Some (cap n +++ " " +++ r +++ ";")
  end.

(** ** goXdr; [p] is valPtr *)
Definition goXdr_u32 (p : string) : string := "xdr.XdrU32(xs, (*uint32)(" +++ p +++ "));" +++ NL.
Definition goXdr_bool (p : string) : string := "xdr.XdrBool(xs, (*bool)(" +++ p +++ "));" +++ NL.
Definition field_ptr (p n : string) : string := "&((" +++ p +++ ")." +++ cap n +++ ")".
(** out.go:315-320: the case labels of one arm. *)
Fixpoint case_labels (l : list string) : string :=
  match l with
  | [] => ""
  | [c] => "case " +++ cap c +++ ":" +++ NL
  | c :: l => "case " +++ cap c +++ ":" +++ NL +++ "fallthrough" +++ NL +++ case_labels l
  end.
Definition size_or (sz : string) : string := if String.eqb sz "" then "-1" else sz.

Fixpoint goXdr (t : typespec) (p : string) : option string :=
  match t with
  | typeInt u => Some (if u then goXdr_u32 p else "xdr.XdrS32(xs, (*int32)(" +++ p +++ "));" +++ NL)             (* 195-201 *)
  | typeHyper u => Some ((if u then "xdr.XdrU64(xs, (*uint64)(" else "xdr.XdrS64(xs, (*int64)(") +++ p +++ "));" +++ NL)   (* 215-221 *)
  | typeFloat | typeDouble | typeQuadruple | typeEnum _ => None      (* 226, 231, 236, 250 *)
  | typeBool => Some (goXdr_bool p)                                  (* 241-243 *)
  | typeStruct items =>                                              (* 274-283 *)
      (fix go l := match l with [] => Some "" | d :: l => do a <- fieldXdr d p ; do b <- go l ; Some (a +++ b) end) items
  | typeUnion sw cases def =>                                        (* 303-335 *)
      match sw with
      | declVoid => None
      | declName st sn =>
          let switchName := "(" +++ p +++ ")." +++ cap sn in
          do a <- declXdr st ("&(" +++ switchName +++ ")") ;
          do b <- (fix go (l : list (list string * decl)) :=
                     match l with [] => Some "" | c :: l => do a <- fieldXdr (snd c) p ; do b <- go l ; Some (case_labels (fst c) +++ a +++ b) end) cases ;
          do c <- match def with Some d => do a <- fieldXdr d p ; Some ("default:" +++ NL +++ a) | None => Some "" end ;
          Some (a +++ "switch " +++ switchName +++ " {" +++ NL +++ b +++ c +++ "}" +++ NL)
      end
  | typeIdent n => Some ("(*" +++ cap n +++ ")(" +++ p +++ ").Xdr(xs);" +++ NL)    (* 342-344 *)
  end
with declXdr (t : declType) (p : string) : option string :=
  match t with
  | declTypeTypespec t => goXdr t p                                  (* 42-44 *)
  | declTypeArray t sz =>                                            (* 55-61 *)
      do b <- goXdr t ("&(*(" +++ p +++ ")[i])") ;
      Some ("for i := 0; i < " +++ sz +++ "; i++ {" +++ NL +++ b +++ NL +++ "}" +++ NL)
  | declTypeVarArray t sz =>                                         (* 72-90 *)
      do e <- goType t ;
      do b <- goXdr t ("&((*(" +++ p +++ "))[i])") ;
      let bounded := negb (String.eqb sz "") in
      Some ("{" +++ NL +++ "var __arraysz uint32" +++ NL +++
            "xs.EncodingSetSize(&__arraysz, len(*" +++ p +++ "));" +++ NL +++
            goXdr_u32 "&__arraysz" +++ NL +++
            (if bounded then "if __arraysz > " +++ sz +++ " { xs.SetError(" +++ DQ +++ "array too large" +++ DQ +++ ") } else {" +++ NL else "") +++
            "if xs.Decoding() { *" +++ p +++ " = make([]" +++ e +++ ", __arraysz); }" +++ NL +++
            "for i := uint64(0); i < uint64(__arraysz); i++ {" +++ NL +++ b +++ NL +++ "}" +++ NL +++
            (if bounded then "}" +++ NL else "") +++ "}" +++ NL)
  | declTypeOpaqueArray _ => Some ("xdr.XdrArray(xs, (*" +++ p +++ ")[:]);" +++ NL)      (* 100-102 *)
  | declTypeOpaqueVarArray sz =>                                     (* 112-118 *)
      Some ("xdr.XdrVarArray(xs, int(" +++ size_or sz +++ "), (*[]byte)(" +++ p +++ "));" +++ NL)
  | declTypeString sz =>                                             (* 128-134 *)
      Some ("xdr.XdrString(xs, int(" +++ size_or sz +++ "), (*string)(" +++ p +++ "));" +++ NL)
  | declTypePtr t =>                                                 (* 144-163 *)
      do e <- goType t ;
      do b <- goXdr t ("*(" +++ p +++ ")") ;
      Some ("if xs.Encoding() {" +++ NL +++ "opted := *(" +++ p +++ ") != nil" +++ NL +++ goXdr_bool "&opted" +++
            "if opted {" +++ NL +++ b +++ "}" +++ NL +++ "}" +++ NL +++
            "if xs.Decoding() {" +++ NL +++ "var opted bool" +++ NL +++ goXdr_bool "&opted" +++
            "if opted {" +++ NL +++ "*(" +++ p +++ ") = new(" +++ e +++ ")" +++ NL +++ b +++ "}" +++ NL +++ "}" +++ NL)
  end
with fieldXdr (d : decl) (p : string) : option string :=             (* 277-280, 321-324, 328-331 *)
  match d with
  | declVoid => Some ""
  | declName t n => declXdr t (field_ptr p n)
  end.

(** ** Emission.  Each write goes to [out] or to [tout] (main.go:21-22). *)
Inductive write : Type := WOut (s : string) | WTout (s : string).

(** main.go:15-19 *)
Record flags : Type := mkFlags { fl_pkg : string; fl_types : bool; fl_unsigned : bool; fl_const : string }.

Definition out_line (s : string) : write := WOut (s +++ NL).
Definition tout_line (s : string) : write := WTout (s +++ NL).

(** out.go:448-508: [func (v *T) Xdr(xs *xdr.XdrState) { ... }] *)
Definition xdr_method (name body : string) : list write :=
  [WOut ("func (v *" +++ name +++ ") Xdr(xs *xdr.XdrState) {" +++ NL); WOut body; out_line "}"].

(** 444-446 *)
Definition emitConst (fl : flags) (ident val : string) : list write :=
  [tout_line ("const " +++ ident +++ " " +++ fl_const fl +++ " = " +++ val)].
(** 448-468 *)
Definition emitTypedef (d : decl) : option (list write) :=
  match d with
  | declVoid => Some []
  | declName t n =>
      do g <- declGoType t ;
      let '(g, ref) := match t with declTypePtr _ => ("struct { P " +++ g +++ " }", "&v.P") | _ => (g, "v") end in
      do b <- declXdr t ref ;
      Some (tout_line ("type " +++ cap n +++ " " +++ g) :: xdr_method (cap n) b)
  end.
(** 470-485 *)
Definition emitEnum (fl : flags) (ident : string) (items : list enumItem) : list write :=
  let t := if fl_unsigned fl then "uint32" else "int32" in
  tout_line ("type " +++ cap ident +++ " " +++ t) ::
  xdr_method (cap ident) ("xdr." +++ (if fl_unsigned fl then "XdrU32" else "XdrS32") +++ "(xs, (*" +++ t +++ ")(v));" +++ NL) ++
  map (fun it => tout_line ("const " +++ cap (fst it) +++ " " +++ cap ident +++ " = " +++ snd it)) items.
(** 487-500 *)
Definition struct_line (d : decl) : option string :=
  match d with
  | declVoid => Some ""
  | declName t n => do g <- declGoType t ; Some ("  " +++ cap n +++ " " +++ g +++ ";" +++ NL)
  end.
Definition emitStruct (ident : string) (items : list decl) : option (list write) :=
  do ls <- cat_opt struct_line items ;
  do b <- goXdr (typeStruct items) "v" ;
  Some (tout_line ("type " +++ cap ident +++ " struct {") :: WTout ls :: tout_line "}" :: xdr_method (cap ident) b).
(** 502-508 *)
Definition emitUnion (ident : string) (sw : decl) (cases : list (list string * decl)) (def : option decl) : option (list write) :=
  do g <- goType (typeUnion sw cases def) ;
  do b <- goXdr (typeUnion sw cases def) "v" ;
  Some (tout_line ("type " +++ cap ident +++ " " +++ g) :: xdr_method (cap ident) b).

(** 175-181 *)
Definition maybeGoType (o : typespecOpt) : option string := match o with None => Some "" | Some t => goType t end.
(** 390-392 *)
Definition iface_line (c : progCall) : option string :=
  do a <- maybeGoType (pc_arg c) ; do r <- maybeGoType (pc_res c) ; Some (cap (pc_name c) +++ "(" +++ a +++ ") " +++ r +++ NL).
(** 399-426; [pv] is the common prefix i(prog)_i(vers) *)
Definition wrapper (pv : string) (c : progCall) : option string :=
  do a <- maybeGoType (pc_arg c) ; do r <- maybeGoType (pc_res c) ;
  Some ("func (w *" +++ pv +++ "_handler_wrapper) " +++ cap (pc_name c) +++ "(args *xdr.XdrState) (res xdr.Xdrable, err error) {" +++ NL +++
        match pc_arg c with
        | None => ""
        | Some _ => "var in " +++ a +++ NL +++ "in.Xdr(args)" +++ NL +++ "err = args.Error()" +++ NL +++ "if err != nil { return }" +++ NL
        end +++
        match pc_res c with None => "var out xdr.Void" +++ NL | Some _ => "var out " +++ r +++ NL end +++
        match pc_res c with None => "" | Some _ => "out = " end +++
        "w.h." +++ cap (pc_name c) +++ "(" +++ match pc_arg c with None => "" | Some _ => "in" end +++ ")" +++ NL +++
        "return &out, nil" +++ "}" +++ NL).
(** 431-438 *)
Definition reg_entry (prog vers : string) (c : progCall) : string :=
  "xdr.ProcRegistration{" +++ NL +++ "Prog: " +++ cap prog +++ "," +++ NL +++ "Vers: " +++ cap vers +++ "," +++ NL +++
  "Proc: " +++ cap (pc_name c) +++ "," +++ NL +++ "Handler: w." +++ cap (pc_name c) +++ "," +++ NL +++ "}," +++ NL.
(** 382-441, one version *)
Definition emitVer (prog : string) (v : progVer) : option (list write) :=
  let pv := cap prog +++ "_" +++ cap (pv_name v) in
  do ifs <- cat_opt iface_line (pv_calls v) ;
  do ws <- cat_opt (wrapper pv) (pv_calls v) ;
  Some (tout_line ("const " +++ cap (pv_name v) +++ " uint32 = " +++ pv_id v) ::
        map (fun c => tout_line ("const " +++ cap (pc_name c) +++ " uint32 = " +++ pc_id c)) (pv_calls v) ++
        [out_line ("type " +++ pv +++ "_handler interface {"); WOut ifs; out_line "}";
         out_line ("type " +++ pv +++ "_handler_wrapper struct {"); out_line ("h " +++ pv +++ "_handler"); out_line "}";
         WOut ws;
         out_line ("func " +++ pv +++ "_regs(h " +++ pv +++ "_handler) []xdr.ProcRegistration {");
         out_line ("w := &" +++ pv +++ "_handler_wrapper{h}");
         out_line "return []xdr.ProcRegistration{";
         WOut (String.concat "" (map (reg_entry prog (pv_name v)) (pv_calls v)));
         out_line "}"; out_line "}"]).
Fixpoint emit_list {A} (f : A -> option (list write)) (l : list A) : option (list write) :=
  match l with
  | [] => Some []
  | a :: l => do x <- f a ; do y <- emit_list f l ; Some (x ++ y)
  end.
(** 380-442 *)
Definition emitProg (d : progDef) : option (list write) :=
  do vs <- emit_list (emitVer (pd_name d)) (pd_vers d) ;
  Some (tout_line ("const " +++ cap (pd_name d) +++ " uint32 = " +++ pd_id d) :: vs).

(** xdr.y:178-191: the action of one definition. *)
Definition emit (fl : flags) (d : defn) : option (list write) :=
  match d with
  | defConst n v => Some (emitConst fl n v)
  | defTypedef d => emitTypedef d
  | defEnum n l => Some (emitEnum fl n l)
  | defStruct n l => emitStruct n l
  | defUnion n s c d => emitUnion n s c d
  | defProg p => emitProg p
  end.

(** main.go:57-58, 72: the headers. *)
Definition out_header (fl : flags) : string :=
  "package " +++ fl_pkg fl +++ NL +++ "import " +++ DQ +++ "github.com/zeldovich/go-rpcgen/xdr" +++ DQ +++ NL.
Definition tout_header (fl : flags) : string := "package " +++ fl_pkg fl +++ NL.

(** What ends up in the file behind [out] and, with -t, in the one behind [tout]. *)
Fixpoint out_text (sep : bool) (ws : list write) : string :=
  match ws with
  | [] => ""
  | WOut s :: ws => s +++ out_text sep ws
  | WTout s :: ws => (if sep then "" else s) +++ out_text sep ws
  end.
Fixpoint tout_text (ws : list write) : string :=
  match ws with
  | [] => ""
  | WOut _ :: ws => tout_text ws
  | WTout s :: ws => s +++ tout_text ws
  end.

(** The same text in either file, and in both if they are one. *)
Definition eqw (a b : list write) : Prop := (forall sep, out_text sep a = out_text sep b) /\ tout_text a = tout_text b.

(** The contents of the temporary files when xdrParse (main.go:77) returns. *)
Definition generate (fl : flags) (src : string) : option (string * option string) :=
  do ds <- front src ;
  do ws <- emit_list (emit fl) ds ;
  Some (out_header fl +++ out_text (fl_types fl) ws,
        if fl_types fl then Some (tout_header fl +++ tout_text ws) else None).

(** /repo/Makefile:12 for the directory [pkg]. *)
Definition make_flags (pkg : string) : flags := mkFlags pkg true true "uint32".

(** gofmt (go/format) changes white space and line breaks, which can add or drop a semicolon
    before a closing brace or parenthesis. *)
Definition closes (t : gtok) : bool := match t with GOp o => mem o ["}"; ")"] | _ => false end.
Fixpoint norm (ts : list gtok) : list gtok :=
  match ts with
  | GSemi :: r => match r with t :: _ => if closes t then norm r else GSemi :: norm r | [] => [GSemi] end
  | t :: r => t :: norm r
  | [] => []
  end.
Definition same_go (a b : string) : Prop := option_map norm (go_tokens a) = option_map norm (go_tokens b).
