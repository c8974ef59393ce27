(** The text of /repo/scan.go, run by MainSem.v, computes what XLex.v says. *)
From Coq Require Import Lia.
From Verif Require Import GoLex XLex Gram GParse Emit SrcAst MainAst MainProg MainSem MainOut.
Open Scope string_scope.
Open Scope list_scope.

(** ** Tokens of package go/token *)
Definition kw_names : list (string * string) :=
  [("break", "BREAK"); ("case", "CASE"); ("chan", "CHAN"); ("const", "CONST"); ("continue", "CONTINUE"); ("default", "DEFAULT"); ("defer", "DEFER");
   ("else", "ELSE"); ("fallthrough", "FALLTHROUGH"); ("for", "FOR"); ("func", "FUNC"); ("go", "GO"); ("goto", "GOTO"); ("if", "IF"); ("import", "IMPORT");
   ("interface", "INTERFACE"); ("map", "MAP"); ("package", "PACKAGE"); ("range", "RANGE"); ("return", "RETURN"); ("select", "SELECT"); ("struct", "STRUCT");
   ("switch", "SWITCH"); ("type", "TYPE"); ("var", "VAR")].
Definition op_names : list (string * string) :=
  [("+", "ADD"); ("-", "SUB"); ("*", "MUL"); ("/", "QUO"); ("%", "REM"); ("&", "AND"); ("|", "OR"); ("^", "XOR"); ("<<", "SHL"); (">>", "SHR"); ("&^", "AND_NOT");
   ("+=", "ADD_ASSIGN"); ("-=", "SUB_ASSIGN"); ("*=", "MUL_ASSIGN"); ("/=", "QUO_ASSIGN"); ("%=", "REM_ASSIGN"); ("&=", "AND_ASSIGN"); ("|=", "OR_ASSIGN");
   ("^=", "XOR_ASSIGN"); ("<<=", "SHL_ASSIGN"); (">>=", "SHR_ASSIGN"); ("&^=", "AND_NOT_ASSIGN"); ("&&", "LAND"); ("||", "LOR"); ("<-", "ARROW"); ("++", "INC");
   ("--", "DEC"); ("==", "EQL"); ("<", "LSS"); (">", "GTR"); ("=", "ASSIGN"); ("!", "NOT"); ("~", "TILDE"); ("!=", "NEQ"); ("<=", "LEQ"); (">=", "GEQ");
   (":=", "DEFINE"); ("...", "ELLIPSIS"); ("(", "LPAREN"); ("[", "LBRACK"); ("{", "LBRACE"); (",", "COMMA"); (".", "PERIOD"); (")", "RPAREN"); ("]", "RBRACK");
   ("}", "RBRACE"); (":", "COLON")].
Definition tok_names : list string :=
  ["ILLEGAL"; "EOF"; "IDENT"; "INT"; "FLOAT"; "IMAG"; "CHAR"; "STRING"; "SEMICOLON"] ++ map snd kw_names ++ map snd op_names.
(** The constant of go/token for a token; [None] is the end of the text. *)
Definition tok_name (t : option gtok) : string :=
  match t with
  | None => "EOF"
  | Some (GIdent _) => "IDENT"
  | Some (GKw w) => match XLex.assoc w kw_names with Some a => a | None => "ILLEGAL" end
  | Some (GInt _) => "INT" | Some (GFloat _) => "FLOAT" | Some (GImag _) => "IMAG"
  | Some (GStr _) => "STRING" | Some (GChar _) => "CHAR"
  | Some (GOp o) => match XLex.assoc o op_names with Some a => a | None => "ILLEGAL" end
  | Some GSemi => "SEMICOLON"
  | Some (GIllegal _) => "ILLEGAL"
  end.

(** ** Tokens of the parser: %token names of /repo/xdr.y:25-57, or characters *)
Definition y_names : list string :=
  ["KWCONST"; "KWTYPEDEF"; "KWENUM"; "KWSTRUCT"; "KWUNION"; "KWSWITCH"; "KWCASE"; "KWDEFAULT"; "KWVOID"; "KWOPAQUE"; "KWSTRING"; "KWUNSIGNED"; "KWINT"; "KWHYPER";
   "KWFLOAT"; "KWDOUBLE"; "KWQUADRUPLE"; "KWBOOL"; "KWPROGRAM"; "KWVERSION"; "CONST"; "IDENT"].
Definition y_name (y : ytok) : string + ascii :=
  match y with
  | KWCONST => inl "KWCONST" | KWTYPEDEF => inl "KWTYPEDEF" | KWENUM => inl "KWENUM" | KWSTRUCT => inl "KWSTRUCT" | KWUNION => inl "KWUNION"
  | KWSWITCH => inl "KWSWITCH" | KWCASE => inl "KWCASE" | KWDEFAULT => inl "KWDEFAULT" | KWVOID => inl "KWVOID" | KWOPAQUE => inl "KWOPAQUE"
  | KWSTRING => inl "KWSTRING" | KWUNSIGNED => inl "KWUNSIGNED" | KWINT => inl "KWINT" | KWHYPER => inl "KWHYPER" | KWFLOAT => inl "KWFLOAT"
  | KWDOUBLE => inl "KWDOUBLE" | KWQUADRUPLE => inl "KWQUADRUPLE" | KWBOOL => inl "KWBOOL" | KWPROGRAM => inl "KWPROGRAM" | KWVERSION => inl "KWVERSION"
  | CONST _ => inl "CONST" | IDENT _ => inl "IDENT"
  | YEq => inr "="%char | YSemi => inr ";"%char | YColon => inr ":"%char | YLt => inr "<"%char | YGt => inr ">"%char | YLBrack => inr "["%char | YRBrack => inr "]"%char
  | YLBrace => inr "{"%char | YRBrace => inr "}"%char | YComma => inr ","%char | YLParen => inr "("%char | YRParen => inr ")"%char | YStar => inr "*"%char
  end.
(** The value that comes with a token, in the field str. *)
Definition y_str (y : ytok) : option string := match y with CONST s | IDENT s => Some s | _ => None end.

Section Scan.
Context {W : Type}.
Variable consts : string -> option uv.
Variable ext : string -> list uv -> mm W -> mres W (list uv).
Notation run := (urun main_pkgs consts main_pkg ext).
(** The numbers of the tokens. *)
Variables (num ynum : string -> Z).
(** The scanner, object [k]: the tokens still to come, positions and texts; a step of it; printing. *)
Variable k : nat.
Variable toks : W -> list gtok.
Variable pos : W -> Z.
Variable lit : option gtok -> string.
Variable adv : W -> W.
Variable say : list uv -> W -> W.
Definition now (w : W) : option gtok := hd_error (toks w).
(** Distinct tokens have distinct numbers; the functions of other packages do what they should. *)
Record scans : Prop := {
  sc_num : forall a b, In a tok_names -> In b tok_names -> num a = num b -> a = b;
  sc_tok : forall a, In a tok_names -> consts ("token." ++ a)%string = Some (UInt (num a));
  sc_y : forall a, In a y_names -> consts a = Some (UInt (ynum a));
  sc_ynum : forall a b, In a y_names -> In b y_names -> ynum a = ynum b -> a = b;
  sc_big : forall a, In a y_names -> (255 < ynum a)%Z;
  sc_ident : forall w, lit (Some (GIdent w)) = w;
  sc_int : forall s, lit (Some (GInt s)) = s;
  sc_scan : forall g c d w, ext ".Scan" [UObj k] (mkMM g c d w) = MOk (mkMM g c d (adv w)) [UInt (pos w); UInt (num (tok_name (now w))); UStr (lit (now w))];
  sc_adv : forall w, toks (adv w) = tl (toks w);
  sc_print : forall vs g c d w, ext "fmt.Printf" vs (mkMM g c d w) = MOk (mkMM g c d (say vs w)) [UInt 0; UNil];
  sc_say : forall vs w, toks (say vs w) = toks w }.
Hypothesis H : scans.

Definition y_code (y : ytok) : Z := match y_name y with inl a => ynum a | inr c => Z.of_N (acode c) end.
Definition set_str (c : list uv) (pv : nat) (fs : uenv) (y : ytok) : list uv :=
  match y_str y with
  | Some s => match uset "str" (UStr s) fs with Some fs => nset c pv (UStruct "xdrSymType" fs) | None => c end
  | None => c
  end.

(** *** The switches *)
Fixpoint find_tok (a : string) (cs : list (option mx * list ms)) : option (list ms) :=
  match cs with
  | (Some (XSel (XId p) b), body) :: cs => if String.eqb a b then Some body else find_tok a cs
  | (None, body) :: _ => Some body
  | _ => None
  end.
Definition tok_cases (cs : list (option mx * list ms)) : bool :=
  forallb (fun c : option mx * list ms => match fst c with Some (XSel (XId p) b) => String.eqb p "token" && GoLex.mem b tok_names | None => true | _ => false end) cs.
Lemma mem_In x l : GoLex.mem x l = true -> In x l.
Proof. unfold GoLex.mem. rewrite existsb_exists. intros (y & I & E). apply String.eqb_eq in E. subst. exact I. Qed.
Lemma num_eqb a b : In a tok_names -> In b tok_names -> Z.eqb (num a) (num b) = String.eqb a b.
Proof.
  intros A B. destruct (String.eqb_spec a b) as [->|N]; [apply Z.eqb_refl|]. apply Z.eqb_neq. intros E. apply N. apply (sc_num H); assumption.
Qed.
Lemma switch_tok n ex en a cs body m : In a tok_names -> tok_cases cs = true -> uassoc "token" en = None -> find_tok a cs = Some body ->
  ucase ex (ueval main_pkgs consts main_pkg ext (run n) en) (UInt (num a)) en cs m = ublk ex body en m.
Proof.
  intros A T E. induction cs as [|[[e|] b] cs IH]; cbn [find_tok]; [discriminate| |].
  - cbn [tok_cases forallb fst] in T. apply andb_true_iff in T. destruct T as [T1 T2]. destruct e; try discriminate. destruct e; try discriminate.
    apply andb_true_iff in T1. destruct T1 as [Tp T1]. apply String.eqb_eq in Tp. subst x. apply mem_In in T1.
    intros F. cbn [ucase ueval upkg]. change (GoLex.mem "token" main_pkgs) with true. cbv iota. rewrite E. change ("token" ++ "." ++ f)%string with ("token." ++ f)%string. rewrite (sc_tok H) by exact T1. cbn [lift mbind usame]. rewrite num_eqb by assumption.
    destruct (String.eqb a f); [injection F as <-; reflexivity|]. apply IH; assumption.
  - intros [= <-]. reflexivity.
Qed.
Fixpoint find_lit (w : string) (cs : list (option mx * list ms)) : option (list ms) :=
  match cs with
  | (Some (XStr b), body) :: cs => if String.eqb w (lit_text b) then Some body else find_lit w cs
  | (None, body) :: _ => Some body
  | _ => None
  end.
Lemma switch_lit n ex en w cs body m : find_lit w cs = Some body ->
  ucase ex (ueval main_pkgs consts main_pkg ext (run n) en) (UStr w) en cs m = ublk ex body en m.
Proof.
  induction cs as [|[[e|] b] cs IH]; cbn [find_lit]; [discriminate| |].
  - destruct e; try discriminate. intros F. cbn [ucase ueval mbind usame]. destruct (String.eqb w (lit_text s)); [injection F as <-; reflexivity|]. apply IH, F.
  - intros [= <-]. reflexivity.
Qed.

(** The cases of the two switches. *)
Definition lex_body : list ms := match scan_lexer_Lex with MFunc _ _ _ _ b _ => b | _ => [] end.
Definition lex_cases : list (option mx * list ms) := match lex_body with [_; _; _; TSwitch _ cs] => cs | _ => [] end.
Definition id_cases : list (option mx * list ms) := match find_tok "IDENT" lex_cases with Some [TSwitch _ cs] => cs | _ => [] end.
Lemma id_found w : find_lit w id_cases =
  match XLex.assoc w x_keywords with
  | Some y => match y_name y with inl a => Some [TRet [XId a]] | inr _ => None end
  | None => Some [TSet [XSel (XId "lval") "str"] (XId "lit"); TRet [XId "IDENT"]]
  end.
Proof.
  cbv [id_cases lex_cases lex_body scan_lexer_Lex find_tok String.eqb Ascii.eqb Bool.eqb]. cbn [find_lit XLex.assoc x_keywords].
  repeat match goal with |- context [String.eqb w (lit_text ?s)] => let s' := eval vm_compute in (lit_text s) in change (lit_text s) with s' end.
  repeat (match goal with |- context [String.eqb w ?s] => destruct (String.eqb w s) end; [reflexivity|]). reflexivity.
Qed.
Lemma assoc_In {A} w (l : list (string * A)) a : XLex.assoc w l = Some a -> In (w, a) l.
Proof. induction l as [|[x b] l IH]; cbn; [discriminate|]. destruct (String.eqb_spec w x) as [->|]; [intros [= ->]; auto|auto]. Qed.
Lemma assoc_none {A B} w (l : list (string * A)) (l' : list (string * B)) :
  forallb (fun p => existsb (String.eqb (fst p)) (map fst l)) l' = true -> XLex.assoc w l = None -> XLex.assoc w l' = None.
Proof.
  intros F N. induction l' as [|[x b] l' IH]; [reflexivity|]. cbn in F. apply andb_true_iff in F. destruct F as [F1 F2]. cbn. destruct (String.eqb_spec w x) as [->|]; [|apply IH, F2].
  exfalso. clear IH F2. induction l as [|[y a] l IH]; [discriminate|]. cbn in N, F1. destruct (String.eqb x y); [discriminate|]. apply IH; assumption.
Qed.
Lemma tok_known t : In (tok_name t) tok_names.
Proof.
  destruct t as [t|]; [|vm_compute; tauto]. destruct t; cbn [tok_name]; try (apply mem_In; reflexivity).
  - destruct (XLex.assoc _ kw_names) as [a|] eqn:E; [|apply mem_In; reflexivity]. apply assoc_In in E. unfold tok_names. apply in_or_app. right. apply in_or_app. left. exact (in_map snd _ _ E).
  - destruct (XLex.assoc _ op_names) as [a|] eqn:E; [|apply mem_In; reflexivity]. apply assoc_In in E. unfold tok_names. apply in_or_app. right. apply in_or_app. right. exact (in_map snd _ _ E).
Qed.

(** *** One token *)
Record lst (pl pv pd : nat) (b : bool) (fs : uenv) (g : uenv) (c : list uv) : Prop := {
  ls_debug : uassoc "debugFlag" g = Some (UPtr pd);
  ls_names : forall a, In a ("eof" :: y_names) -> uassoc a g = None;
  ls_flag : nth_error c pd = Some (UBool b);
  ls_lexer : nth_error c pl = Some (UStruct "lexer" [("s", UObj k)]);
  ls_lval : nth_error c pv = Some (UStruct "xdrSymType" fs);
  ls_str : exists v, uassoc "str" fs = Some v }.

Definition dbg_args (w : W) : list uv := [UStr ("pos=%v, tok=%v, lit=%v" ++ String nl "")%string; UInt (pos w); UInt (num (tok_name (now w))); UStr (lit (now w))].
Definition bad_args (w : W) : list uv := [UStr ("NOT HANDLED: pos=%v, tok=%v, lit=%v" ++ String nl "")%string; UInt (pos w); UInt (num (tok_name (now w))); UStr (lit (now w))].
Definition heard (b : bool) (w : W) : W := if b then say (dbg_args w) (adv w) else adv w.
Definition lex_en (pl pv : nat) (w : W) : uenv := [("lit", UStr (lit (now w))); ("tok", UInt (num (tok_name (now w)))); ("pos", UInt (pos w)); ("l", UPtr pl); ("lval", UPtr pv)].
(** What the switch does with a token. *)
Definition does (n pl pv : nat) (w : W) (body : list ms) (m m' : mm W) (r : Z) : Prop := exists en,
  ublk (uexec main_pkgs consts main_pkg ext (run n)) body (lex_en pl pv w) m = MOk m' (en, KRet [UInt r]).

Lemma uset_some {A} x (a : A) l v : uassoc x l = Some v -> exists l', uset x a l = Some l'.
Proof. induction l as [|[y b] l IH]; cbn; [discriminate|]. destruct (String.eqb x y); [eauto|]. intros E. destruct (IH E) as (l' & ->). eexists. reflexivity. Qed.
Lemma name_y n pl pv pd b fs g c w a m : lst pl pv pd b fs g c -> mm_glob m = g -> In a y_names -> does n pl pv w [TRet [XId a]] m m (ynum a).
Proof.
  intros S G A. unfold does, ublk. cbn [useq uexec uevals ueval]. unfold uvar.
  assert (uassoc a (lex_en pl pv w) = None /\ String.eqb a "nil" = false /\ String.eqb a "true" = false /\ String.eqb a "false" = false /\ find_const main_pkg a = None) as (E1 & E2 & E3 & E4 & E5).
  { unfold y_names in A. cbn [In] in A. repeat (destruct A as [<-|A]; [repeat split; reflexivity|]). destruct A. }
  rewrite E1, E2, E3, E4, E5, G, (ls_names _ _ _ _ _ _ _ S) by (right; exact A). rewrite (sc_y H) by exact A. cbn. eexists. reflexivity.
Qed.
Lemma chr_y n pl pv w c m : does n pl pv w [TRet [XChr c]] m m (chr_text c).
Proof. eexists. reflexivity. Qed.
Lemma set_y n pl pv pd b fs g c w e s a d u : lst pl pv pd b fs g c -> In a y_names ->
  ueval main_pkgs consts main_pkg ext (run n) (lex_en pl pv w) e (mkMM g c d u) = MOk (mkMM g c d u) (UStr s) ->
  exists fs', uset "str" (UStr s) fs = Some fs' /\
  does n pl pv w [TSet [XSel (XId "lval") "str"] e; TRet [XId a]] (mkMM g c d u) (mkMM g (nset c pv (UStruct "xdrSymType" fs')) d u) (ynum a).
Proof.
  intros S A E. destruct (ls_str _ _ _ _ _ _ _ S) as [v V]. destruct (uset_some "str" (UStr s) _ _ V) as [fs' F]. exists fs'. split; [exact F|].
  unfold does, ublk. cbn [useq uexec]. rewrite E. cbn [mbind umany uassigns uassign lex_en uassoc String.eqb Ascii.eqb Bool.eqb]. unfold ucell. cbn [mm_cells]. rewrite (ls_lval _ _ _ _ _ _ _ S), F. cbn [mbind snd fst].
  destruct (name_y n pl pv pd b fs g c w a (with_ucells (mkMM g c d u) (nset c pv (UStruct "xdrSymType" fs'))) S eq_refl A) as [en K]. unfold ublk in K. cbn [useq uexec] in K. exists en. exact K.
Qed.

Definition good_case (fs : uenv) (n pl pv : nat) (g : uenv) (c : list uv) d (w u : W) (y : ytok) (body : list ms) : Prop :=
  does n pl pv w body (mkMM g c d u) (mkMM g (set_str c pv fs y) d u) (y_code y).
Ltac in_y := apply mem_In; reflexivity.
Ltac case_y S :=
  eexists; split; [reflexivity|]; unfold good_case; first
  [ eapply name_y; [exact S|reflexivity|in_y]
  | apply chr_y ].
Lemma switch_y n pl pv pd b fs g c d w u t y : lst pl pv pd b fs g c -> now w = Some t -> Lex t = Some y ->
  exists body, find_tok (tok_name (Some t)) lex_cases = Some body /\ good_case fs n pl pv g c d w u y body.
Proof.
  intros S N L. destruct t; cbn [Lex] in L; try discriminate.
  - exists [TSwitch (XId "lit") id_cases]. split; [reflexivity|]. unfold good_case, does, ublk. cbn [useq uexec ueval].
    change (uvar consts main_pkg (lex_en pl pv w) (mkMM g c d u) "lit") with (Some (UStr (lit (now w)))). rewrite N, (sc_ident H). cbn [lift mbind].
    assert (exists body, find_lit s id_cases = Some body /\ good_case fs n pl pv g c d w u y body) as (body & B & [en D]).
    { rewrite id_found. destruct (XLex.assoc s x_keywords) as [z|] eqn:E.
      - injection L as <-. apply assoc_In in E. unfold x_keywords in E. cbn [In] in E. repeat (destruct E as [E|E]; [injection E as _ <-; case_y S|]). destruct E.
      - injection L as <-. eexists. split; [reflexivity|]. unfold good_case, set_str. cbn [y_str].
        destruct (set_y n pl pv pd b fs g c w (XId "lit") s "IDENT" d u S ltac:(in_y)) as (fs' & F & D).
        + cbn [ueval]. change (uvar consts main_pkg (lex_en pl pv w) (mkMM g c d u) "lit") with (Some (UStr (lit (now w)))). rewrite N, (sc_ident H). reflexivity.
        + rewrite F. exact D. }
    rewrite (switch_lit n _ _ s _ body _ B), D. cbn. eexists. reflexivity.
  - apply assoc_In in L. unfold go_keywords in L. cbn [In] in L. repeat (destruct L as [L|L]; [injection L as <- <-|]); [..|destruct L]; try case_y S.
    + eexists. split; [reflexivity|]. unfold good_case, set_str. cbn [y_str]. destruct (set_y n pl pv pd b fs g c w (XStr """type""") "type" "IDENT" d u S ltac:(in_y) eq_refl) as (fs' & F & D). rewrite F. exact D.
    + eexists. split; [reflexivity|]. unfold good_case, set_str. cbn [y_str]. destruct (set_y n pl pv pd b fs g c w (XStr """map""") "map" "IDENT" d u S ltac:(in_y) eq_refl) as (fs' & F & D). rewrite F. exact D.
  - injection L as <-. eexists. split; [reflexivity|]. unfold good_case, set_str. cbn [y_str].
    destruct (set_y n pl pv pd b fs g c w (XId "lit") s "CONST" d u S ltac:(in_y)) as (fs' & F & D).
    + cbn [ueval]. change (uvar consts main_pkg (lex_en pl pv w) (mkMM g c d u) "lit") with (Some (UStr (lit (now w)))). rewrite N, (sc_int H). reflexivity.
    + rewrite F. exact D.
  - apply assoc_In in L. unfold x_ops in L. cbn [In] in L. repeat (destruct L as [L|L]; [injection L as <- <-; case_y S|]). destruct L.
  - injection L as <-. case_y S.
Qed.
Definition default_body : list ms := match find_tok "ILLEGAL" lex_cases with Some b => b | None => [] end.
Lemma switch_bad t : Lex t = None -> find_tok (tok_name (Some t)) lex_cases = Some default_body.
Proof.
  destruct t; cbn [Lex]; intros L; try discriminate; try reflexivity.
  - destruct (XLex.assoc s x_keywords); discriminate.
  - cbn [tok_name]. destruct (XLex.assoc s kw_names) as [a|] eqn:E; [|reflexivity]. apply assoc_In in E. unfold kw_names in E. cbn [In] in E.
    repeat (destruct E as [E|E]; [injection E as <- <-; first [discriminate L|reflexivity]|]). destruct E.
  - cbn [tok_name]. destruct (XLex.assoc s op_names) as [a|] eqn:E; [|reflexivity]. apply assoc_In in E. unfold op_names in E. cbn [In] in E.
    repeat (destruct E as [E|E]; [injection E as <- <-; first [discriminate L|reflexivity]|]). destruct E.
Qed.
Lemma ext_call n f args (m : mm W) : find_func main_pkg f = None -> run (S n) f args m = ext f args m.
Proof. intros E. cbn [urun]. rewrite E. reflexivity. Qed.
Lemma default_panics n pl pv g c d w u :
  ublk (uexec main_pkgs consts main_pkg ext (run (S n))) default_body (lex_en pl pv w) (mkMM g c d u) = MPanic (mkMM g c d (say (bad_args w) u)).
Proof.
  change default_body with [TExpr (XCall (XSel (XId "fmt") "Printf") [(XStr """NOT HANDLED: pos=%v, tok=%v, lit=%v\n"""); (XId "pos"); (XId "tok"); (XId "lit")]); TExpr (XCall (XId "panic") [(XStr """token not handled""")])].
  unfold ublk. cbn -[urun main_pkg]. rewrite ext_call by reflexivity. change (String "f" _) with "fmt.Printf". rewrite (sc_print H). reflexivity.
Qed.

(** A call of a function of the package. *)
Definition after (n : nat) (rs : nat) (d : list (string * list uv)) (r : mres W (uenv * uctl)) : mres W (list uv) :=
  let leave {A} (m' : mm W) (k : mm W -> mres W A) : mres W A :=
    mbind (udeferred ext (run n) (mm_defers m') (with_defers m' [])) (fun _ m' => k (with_defers m' d)) in
  match r with
  | MOk m' (_, c) =>
      leave m' (fun m' =>
        match c, rs with
        | KNext, O => MOk m' []
        | KRet vs, rs => if Nat.eqb (List.length vs) rs then MOk m' vs else MStuck
        | _, _ => MStuck
        end)
  | MPanic m' => leave m' MPanic
  | MExit m' => MExit m'
  | MStuck => MStuck
  end.
Lemma run_func n f ps rs body args en g c d w : find_func main_pkg f = Some (ps, rs, body) -> bind_args ps args = Some en ->
  run (S n) f args (mkMM g c d w) = after n rs d (useq (uexec main_pkgs consts main_pkg ext (run n)) body en (mkMM g c [] w)).
Proof. intros E B. cbn [urun]. rewrite E, B. reflexivity. Qed.
Notation ex n := (uexec main_pkgs consts main_pkg ext (run n)).

Definition lex1 : ms := TDef ["pos"; "tok"; "lit"] (XCall (XSel (XSel (XId "l") "s") "Scan") []).
Definition lex2 : ms := TIf (XBin "==" (XId "tok") (XSel (XId "token") "EOF")) [TRet [(XId "eof")]] None.
Definition lex3 : ms := TIf (XUn "*" (XId "debugFlag")) [TExpr (XCall (XSel (XId "fmt") "Printf") [(XStr """pos=%v, tok=%v, lit=%v\n"""); (XId "pos"); (XId "tok"); (XId "lit")])] None.
Definition lex4 : ms := TSwitch (XId "tok") lex_cases.
Lemma lex_found : find_func main_pkg "lexer.Lex" = Some (["l"; "lval"], 1, [lex1; lex2; lex3; lex4]).
Proof. vm_compute. reflexivity. Qed.
Lemma lex1_runs n pl pv pd b fs g c d w : lst pl pv pd b fs g c ->
  ex (S n) lex1 [("l", UPtr pl); ("lval", UPtr pv)] (mkMM g c d w) = MOk (mkMM g c d (adv w)) (lex_en pl pv w, KNext).
Proof.
  intros S. unfold lex1. cbn -[urun main_pkg]. unfold ucell. cbn [mm_cells]. rewrite (ls_lexer _ _ _ _ _ _ _ S). cbn -[urun main_pkg]. rewrite ext_call by reflexivity. rewrite (sc_scan H). reflexivity.
Qed.
Lemma lex2_runs n pl pv pd b fs g c d w : lst pl pv pd b fs g c ->
  ex n lex2 (lex_en pl pv w) (mkMM g c d (adv w)) = MOk (mkMM g c d (adv w)) (lex_en pl pv w, match now w with None => KRet [UInt 0] | Some _ => KNext end).
Proof.
  intros S. unfold lex2.
  assert (ueval main_pkgs consts main_pkg ext (run n) (lex_en pl pv w) (XBin "==" (XId "tok") (XSel (XId "token") "EOF")) (mkMM g c d (adv w)) = MOk (mkMM g c d (adv w)) (UBool (match now w with None => true | Some _ => false end))) as E.
  { cbn -[urun main_pkg tok_name ubin]. change (String "t" _) with ("token." ++ "EOF")%string. rewrite (sc_tok H) by (apply mem_In; reflexivity). cbn [lift mbind]. unfold ubin. cbn [String.eqb Ascii.eqb Bool.eqb usame option_map]. rewrite num_eqb by (apply tok_known || (apply mem_In; reflexivity)).
    destruct (now w) as [t|]; [|reflexivity]. destruct t; try reflexivity; cbn [tok_name].
    - destruct (XLex.assoc _ kw_names) as [a|] eqn:A; [|reflexivity]. apply assoc_In in A. unfold kw_names in A. cbn [In] in A. repeat (destruct A as [A|A]; [injection A as _ <-; reflexivity|]). destruct A.
    - destruct (XLex.assoc _ op_names) as [a|] eqn:A; [|reflexivity]. apply assoc_In in A. unfold op_names in A. cbn [In] in A. repeat (destruct A as [A|A]; [injection A as _ <-; reflexivity|]). destruct A. }
  cbn [uexec]. rewrite E. cbn [mbind]. clear E. destruct (now w) as [t|] eqn:N; [reflexivity|].
  unfold ublk. cbn [useq uexec uevals ueval]. assert (uvar consts main_pkg (lex_en pl pv w) (mkMM g c d (adv w)) "eof" = Some (UInt 0)) as ->; [|reflexivity].
  unfold uvar. change (uassoc "eof" (lex_en pl pv w)) with (@None uv). cbn [String.eqb Ascii.eqb Bool.eqb mm_glob]. rewrite (ls_names _ _ _ _ _ _ _ S "eof") by (left; reflexivity). reflexivity.
Qed.
Lemma lex3_runs n pl pv pd b fs g c d w : lst pl pv pd b fs g c ->
  ex (S n) lex3 (lex_en pl pv w) (mkMM g c d (adv w)) = MOk (mkMM g c d (heard b w)) (lex_en pl pv w, KNext).
Proof.
  intros S. unfold lex3. cbn [uexec].
  assert (ueval main_pkgs consts main_pkg ext (run (Datatypes.S n)) (lex_en pl pv w) (XUn "*" (XId "debugFlag")) (mkMM g c d (adv w)) = MOk (mkMM g c d (adv w)) (UBool b)) as ->.
  { cbn -[urun main_pkg]. rewrite (ls_debug _ _ _ _ _ _ _ S). cbn [lift mbind]. unfold ucell. cbn [mm_cells]. rewrite (ls_flag _ _ _ _ _ _ _ S). reflexivity. }
  cbn [mbind]. unfold heard. destruct b; [|reflexivity]. unfold ublk. cbn -[urun main_pkg]. rewrite ext_call by reflexivity. rewrite (sc_print H). reflexivity.
Qed.
Lemma lex4_runs n pl pv pd b fs g c d w t : lst pl pv pd b fs g c -> now w = Some t -> exists en,
  ex (S n) lex4 (lex_en pl pv w) (mkMM g c d (heard b w)) =
  match Lex t with
  | Some y => MOk (mkMM g (set_str c pv fs y) d (heard b w)) (en, KRet [UInt (y_code y)])
  | None => MPanic (mkMM g c d (say (bad_args w) (heard b w)))
  end.
Proof.
  intros S N. unfold lex4. cbn [uexec ueval]. change (uvar consts main_pkg (lex_en pl pv w) (mkMM g c d (heard b w)) "tok") with (Some (UInt (num (tok_name (now w))))). rewrite N. cbn [lift mbind].
  assert (tok_cases lex_cases = true) as T by reflexivity. assert (uassoc "token" (lex_en pl pv w) = None) as TE by reflexivity.
  destruct (Lex t) as [y|] eqn:L.
  - destruct (switch_y (Datatypes.S n) pl pv pd b fs g c d w (heard b w) t y S N L) as (body & B & en & K). exists en. rewrite (switch_tok (Datatypes.S n) _ _ _ lex_cases body _ (tok_known (Some t)) T TE B). exact K.
  - exists []. rewrite (switch_tok (Datatypes.S n) _ _ _ lex_cases default_body _ (tok_known (Some t)) T TE (switch_bad t L)). apply default_panics.
Qed.

(** scan.go:17-150 on the next token. *)
Theorem lex_text n pl pv pd b fs g c d w : lst pl pv pd b fs g c ->
  run (S (S n)) "lexer.Lex" [UPtr pl; UPtr pv] (mkMM g c d w) =
  match now w with
  | None => MOk (mkMM g c d (adv w)) [UInt 0]
  | Some t =>
      match Lex t with
      | Some y => MOk (mkMM g (set_str c pv fs y) d (heard b w)) [UInt (y_code y)]
      | None => MPanic (mkMM g c d (say (bad_args w) (heard b w)))
      end
  end.
Proof.
  intros S. rewrite (run_func (Datatypes.S n) "lexer.Lex" _ _ _ [UPtr pl; UPtr pv] _ g c d w lex_found eq_refl). cbn [useq]. rewrite (lex1_runs n _ _ _ _ _ _ _ _ _ S). cbn [mbind snd fst].
  rewrite (lex2_runs _ _ _ _ _ _ _ _ _ _ S). cbn [mbind snd fst]. destruct (now w) as [t|] eqn:N; [|reflexivity].
  rewrite (lex3_runs n _ _ _ _ _ _ _ _ _ S). cbn [mbind snd fst].
  destruct (lex4_runs n _ _ _ _ _ _ _ [] w t S N) as [en ->]. destruct (Lex t) as [y|]; reflexivity.
Qed.

(** *** All tokens: Lex called again and again, as the parser does *)
Fixpoint lex_all (n j : nat) (pl pv : nat) (m : mm W) : mres W (list (uv * uv)) :=
  match j with
  | O => MStuck
  | S j =>
      mbind (run n "lexer.Lex" [UPtr pl; UPtr pv] m) (fun vs m =>
      match vs with
      | [UInt 0] => MOk m []
      | [v] => match ufield m (UPtr pv) "str" with Some s => mbind (lex_all n j pl pv m) (fun l m => MOk m ((v, s) :: l)) | None => MStuck end
      | _ => MStuck
      end)
  end.
(** What the parser sees of a token. *)
Definition sees (r : uv * uv) (y : ytok) : Prop := fst r = UInt (y_code y) /\ forall s, y_str y = Some s -> snd r = UStr s.
Lemma y_named y : match y_name y with inl a => In a y_names | inr _ => True end.
Proof. destruct y; cbn [y_name]; try exact I; apply mem_In; reflexivity. Qed.
Lemma y_code_pos y : y_code y <> 0%Z.
Proof.
  pose proof (y_named y) as N. unfold y_code. destruct (y_name y) as [a|c] eqn:E; [pose proof (sc_big H a N); lia|]. destruct y; cbn in E; try discriminate; injection E as <-; vm_compute; discriminate.
Qed.
(** Codes and texts tell tokens apart. *)
Lemma sees_inj r y y' : sees r y -> sees r y' -> y = y'.
Proof.
  intros [A B] [A' B']. rewrite A in A'. injection A' as C. unfold y_code in C.
  assert (y_name y = y_name y') as N.
  { pose proof (y_named y) as Y. pose proof (y_named y') as Y'. destruct (y_name y) as [a|c] eqn:E, (y_name y') as [a'|c'] eqn:E'.
    - f_equal. apply (sc_ynum H); assumption.
    - exfalso. pose proof (sc_big H a Y). destruct y'; cbn in E'; try discriminate; injection E' as <-; vm_compute (acode _) in C; lia.
    - exfalso. pose proof (sc_big H a' Y'). destruct y; cbn in E; try discriminate; injection E as <-; vm_compute (acode _) in C; lia.
    - f_equal. destruct y; cbn in E; try discriminate; injection E as <-; destruct y'; cbn in E'; try discriminate; injection E' as <-; try reflexivity; vm_compute in C; discriminate. }
  destruct y, y'; try discriminate N; try reflexivity; specialize (B _ eq_refl); specialize (B' _ eq_refl); congruence.
Qed.
Lemma nset_nth {A} (c : list A) p v x : nth_error c p = Some x -> forall j, nth_error (nset c p v) j = if Nat.eqb j p then Some v else nth_error c j.
Proof.
  revert p. induction c as [|a c IH]; intros [|p] E [|j]; try discriminate; try reflexivity. cbn [nset nth_error Nat.eqb] in *. apply IH, E.
Qed.
Lemma uset_assoc {A} x (a : A) l l' : uset x a l = Some l' -> uassoc x l' = Some a.
Proof. revert l'. induction l as [|[y b] l IH]; intros l'; cbn; [discriminate|]. destruct (String.eqb x y) eqn:E; [intros [= <-]; cbn; rewrite E; reflexivity|]. destruct (uset x a l); [|discriminate]. intros [= <-]. cbn. rewrite E. apply IH. reflexivity. Qed.
Lemma set_str_lst pl pv pd b fs g c y : lst pl pv pd b fs g c -> exists fs', lst pl pv pd b fs' g (set_str c pv fs y) /\ (forall s, y_str y = Some s -> uassoc "str" fs' = Some (UStr s)).
Proof.
  intros S. unfold set_str. destruct (y_str y) as [s|]; [|exists fs; split; [exact S|discriminate]]. destruct (ls_str _ _ _ _ _ _ _ S) as [v V]. destruct (uset_some "str" (UStr s) _ _ V) as [fs' F]. rewrite F. exists fs'.
  pose proof (uset_assoc _ _ _ _ F) as F'. split; [|intros s' [= <-]; exact F']. destruct S as [S1 S2 S3 S4 S5 S6]. split; try assumption; try (rewrite (nset_nth _ _ _ _ S5)).
  - destruct (Nat.eqb_spec pd pv) as [->|]; [congruence|assumption].
  - destruct (Nat.eqb_spec pl pv) as [->|]; [congruence|assumption].
  - rewrite Nat.eqb_refl. reflexivity.
  - eauto.
Qed.
Lemma toks_heard b w : toks (heard b w) = tl (toks w).
Proof. unfold heard. destruct b; rewrite ?(sc_say H); apply (sc_adv H). Qed.
Theorem lex_all_text n pl pv pd b g d ts j : List.length ts < j -> forall c fs w, lst pl pv pd b fs g c -> toks w = ts ->
  match all_some Lex ts with
  | Some ys => exists m' l, lex_all (S (S n)) j pl pv (mkMM g c d w) = MOk m' l /\ Forall2 sees l ys /\ toks (mm_world m') = []
  | None => exists m', lex_all (S (S n)) j pl pv (mkMM g c d w) = MPanic m'
  end.
Proof.
  revert j. induction ts as [|t ts IH]; intros [|j] J c fs w S T; try (cbn in J; lia); cbn [lex_all]; rewrite (lex_text _ _ _ _ _ _ _ _ _ _ S); unfold now; rewrite T; cbn [hd_error].
  - cbn [all_some mbind]. eexists. exists []. split; [reflexivity|]. split; [constructor|]. cbn [mm_world]. rewrite (sc_adv H), T. reflexivity.
  - cbn [all_some]. destruct (Lex t) as [y|]; [|eexists; reflexivity]. cbn [mbind]. destruct (set_str_lst _ _ _ _ _ _ _ y S) as (fs' & S' & F').
    specialize (IH j ltac:(cbn in J; lia) _ _ (heard b w) S' ltac:(rewrite toks_heard, T; reflexivity)).
    assert (exists v, ufield (mkMM g (set_str c pv fs y) d (heard b w)) (UPtr pv) "str" = Some v /\ forall s, y_str y = Some s -> v = UStr s) as (v & V & V').
    { unfold ufield, ucell. cbn [mm_cells]. rewrite (ls_lval _ _ _ _ _ _ _ S'). destruct (ls_str _ _ _ _ _ _ _ S') as [v V]. exists v. split; [exact V|]. intros s E. rewrite (F' s E) in V. congruence. }
    assert (match UInt (y_code y) with UInt 0 => true | _ => false end = false) as Z0. { pose proof (y_code_pos y). destruct (y_code y); [congruence|reflexivity|reflexivity]. }
    destruct (y_code y) eqn:YC; [discriminate| |]; rewrite V; (destruct (all_some Lex ts) as [ys|];
      [destruct IH as (m' & l & E & F & D); rewrite E; cbn [mbind]; eexists; eexists; split; [reflexivity|]; split; [constructor; [split; cbn [fst snd]; [rewrite YC; reflexivity|exact V']|exact F]|exact D]
      |destruct IH as (m' & E); rewrite E; eexists; reflexivity]).
Qed.
(** scan.go:152-154 *)
Lemma error_text n p e m : run (S n) "lexer.Error" [UPtr p; UStr e] m = MPanic m.
Proof. destruct m as [g c d w]. assert (find_func main_pkg "lexer.Error" = Some (["l"; "e"], 0, [TExpr (XCall (XId "panic") [XId "e"])])) as F by (vm_compute; reflexivity). rewrite (run_func n "lexer.Error" _ _ _ [UPtr p; UStr e] _ g c d w F eq_refl). reflexivity. Qed.
End Scan.

(** ** Example: a scanner over a list of tokens *)
Fixpoint index (a : string) (l : list string) : nat := match l with [] => 0 | b :: l => if String.eqb a b then 0 else S (index a l) end.
Definition ex_num (a : string) : Z := Z.of_nat (index a tok_names).
Definition ex_ynum (a : string) : Z := (57346 + Z.of_nat (index a y_names))%Z.
Definition ex_consts (x : string) : option uv :=
  match x with
  | String "t" (String "o" (String "k" (String "e" (String "n" (String "." a))))) => if GoLex.mem a tok_names then Some (UInt (ex_num a)) else None
  | a => if GoLex.mem a y_names then Some (UInt (ex_ynum a)) else None
  end.
Definition ex_lit (t : option gtok) : string := match t with Some (GIdent w) => w | Some (GInt s) => s | _ => "" end.
Definition ex_ext (f : string) (args : list uv) (m : mm (list gtok)) : mres (list gtok) (list uv) :=
  let '(mkMM g c d w) := m in
  match f, args with
  | ".Scan", [UObj 1] => MOk (mkMM g c d (tl w)) [UInt 0; UInt (ex_num (tok_name (hd_error w))); UStr (ex_lit (hd_error w))]
  | "fmt.Printf", _ => MOk m [UInt 0; UNil]
  | _, _ => MStuck
  end.
Lemma index_inj l a b : In a l -> index a l = index b l -> a = b.
Proof.
  induction l as [|x l IH]; cbn; [tauto|]. intros I. destruct (String.eqb_spec a x) as [->|], (String.eqb_spec b x) as [->|]; try discriminate; try reflexivity. intros [= E]. apply IH; [|exact E]. destruct I as [->|I]; [congruence|exact I].
Qed.
Lemma In_mem x l : In x l -> GoLex.mem x l = true.
Proof. intros I. unfold GoLex.mem. apply existsb_exists. exists x. split; [exact I|apply String.eqb_refl]. Qed.
Lemma ex_scans : scans ex_consts ex_ext ex_num ex_ynum 1 (fun w => w) (fun _ => 0%Z) ex_lit (@tl gtok) (fun _ w => w).
Proof.
  split; try (intros; reflexivity).
  - intros a b A _ E. apply (index_inj tok_names); [exact A|]. unfold ex_num in E. lia.
  - intros a A. change (ex_consts ("token." ++ a)%string) with (if GoLex.mem a tok_names then Some (UInt (ex_num a)) else None). rewrite In_mem by exact A. reflexivity.
  - intros a A. unfold y_names in A. cbn [In] in A. repeat (destruct A as [<-|A]; [reflexivity|]). destruct A.
  - intros a b A _ E. apply (index_inj y_names); [exact A|]. unfold ex_ynum in E. lia.
  - intros a _. unfold ex_ynum. lia.
Qed.
Definition ex_glob : uenv := [("debugFlag", UPtr 0)].
Definition ex_cells : list uv := [UBool true; UStruct "lexer" [("s", UObj 1)]; UStruct "xdrSymType" [("str", UStr "")]].
Lemma ex_lst : lst 1 1 2 0 true [("str", UStr "")] ex_glob ex_cells.
Proof. split; try reflexivity; [|exists (UStr ""); reflexivity]. intros a A. unfold y_names in A. cbn [In] in A. repeat (destruct A as [<-|A]; [reflexivity|]). destruct A. Qed.
(** The tokens of a text, as the parser gets them. *)
Definition ex_lexed (s : string) : option (list (uv * uv)) :=
  match go_tokens s with
  | Some ts => match lex_all ex_consts ex_ext 2 (S (List.length ts)) 1 2 (mkMM ex_glob ex_cells [] ts) with MOk _ l => Some l | _ => None end
  | None => None
  end.
