(** C69: the texts of scan.go and main.go, run by the rules of Go, do what XLex.v and FileSys.v say. *)
From Verif Require Import GoLex XLex Gram GParse Emit FileSys FileSysP SrcAst MainAst MainProg MainSem MainOut MainScan YaccSem YaccLR YaccTab YaccRun MainRun.
Open Scope string_scope.
Open Scope list_scope.

(** scan.go:17-150.  One call of Lex: the end of the text is 0; a token of the model is its code, with its text in lval.str; on other tokens Lex panics.
    [scans]: the tokens of go/token have distinct numbers, so have those of xdr.y, beyond the characters; Scan delivers the tokens. *)
Theorem C69_lex : forall W consts (ext : string -> list uv -> mm W -> mres W (list uv)) num ynum k toks pos lit adv say,
  scans consts ext num ynum k toks pos lit adv say ->
  forall n pl pv pd b fs g c d w, lst k pl pv pd b fs g c ->
  urun main_pkgs consts main_pkg ext (S (S n)) "lexer.Lex" [UPtr pl; UPtr pv] (mkMM g c d w) =
  match hd_error (toks w) with
  | None => MOk (mkMM g c d (adv w)) [UInt 0]
  | Some t =>
      match Lex t with
      | Some y => MOk (mkMM g (set_str c pv fs y) d (heard num toks pos lit adv say b w)) [UInt (y_code ynum y)]
      | None => MPanic (mkMM g c d (say (bad_args num toks pos lit w) (heard num toks pos lit adv say b w)))
      end
  end.
Proof. exact (fun W => lex_text (W := W)). Qed.
Print Assumptions C69_lex.

(** Called again and again, Lex delivers the tokens of the model and ends, or panics exactly if one of them is not handled. *)
Theorem C69_tokens : forall W consts (ext : string -> list uv -> mm W -> mres W (list uv)) num ynum k toks pos lit adv say,
  scans consts ext num ynum k toks pos lit adv say ->
  forall n pl pv pd b g d ts j, List.length ts < j -> forall c fs w, lst k pl pv pd b fs g c -> toks w = ts ->
  match all_some Lex ts with
  | Some ys => exists m' l, lex_all consts ext (S (S n)) j pl pv (mkMM g c d w) = MOk m' l /\ Forall2 (sees ynum) l ys /\ toks (mm_world m') = []
  | None => exists m', lex_all consts ext (S (S n)) j pl pv (mkMM g c d w) = MPanic m'
  end.
Proof. exact (fun W => lex_all_text (W := W)). Qed.
Print Assumptions C69_tokens.

(** What the parser sees of a token determines the token. *)
Theorem C69_codes : forall W consts (ext : string -> list uv -> mm W -> mres W (list uv)) num ynum k toks pos lit adv say,
  scans consts ext num ynum k toks pos lit adv say -> forall r y y', sees ynum r y -> sees ynum r y' -> y = y'.
Proof. exact (fun W => sees_inj (W := W)). Qed.
Print Assumptions C69_codes.

(** main.go:13-102.  The whole program, whatever the options, the results of the system calls and the formatter: it ends, and has made the system
    calls of the model, in order, and ends the way the model says.  xdrParse is [xdr_parse] (C72) with any tables for the grammar of xdr.y. *)
Theorem C69_main : forall num ynum pos lit o opt_s opt_b gofmt T eager, distinct num ynum -> lr_ok XG "spec" T = true -> exists k, forall N n, k <= N -> exists pieces partial, cut_up (the_flags opt_s opt_b) pieces /\
  ended (program num ynum pos lit o opt_s opt_b gofmt T eager N (S (S (S n)))) =
  Some (follow o (main (inputF opt_s) (outputF opt_s) (typesF opt_s) (the_flags opt_s opt_b) gofmt partial pieces) []).
Proof. exact program_text. Qed.
Print Assumptions C69_main.

(** So a run of the text, up to any point, is a run of the model, about which C55 speaks. *)
Theorem C69_runs : forall num ynum pos lit o opt_s opt_b gofmt T eager, distinct num ynum -> lr_ok XG "spec" T = true -> exists k, forall N n, k <= N -> exists h st partial,
  ended (program num ynum pos lit o opt_s opt_b gofmt T eager N (S (S (S n)))) = Some (h, st) /\
  forall strict h1 h2 fs fs', h = h1 ++ h2 -> effs strict fs h1 fs' ->
  exists c, gen_run strict (inputF opt_s) (outputF opt_s) (typesF opt_s) (the_flags opt_s opt_b) gofmt partial fs c fs' /\ (h2 = [] -> c = Done st).
Proof. exact text_runs. Qed.
Print Assumptions C69_runs.

(** For example: at every point of a run of the text, with any I/O errors, only the temporary files differ from the start, unless everything was
    parsed, emitted and formatted. *)
Theorem C69_order : forall num ynum pos lit o opt_s opt_b gofmt T eager, distinct num ynum -> lr_ok XG "spec" T = true -> let i := inputF opt_s in let out := outputF opt_s in let t := typesF opt_s in let fl := the_flags opt_s opt_b in
  exists k, forall N n, k <= N -> exists h st, ended (program num ynum pos lit o opt_s opt_b gofmt T eager N (S (S (S n)))) = Some (h, st) /\
  forall strict h1 h2 fs0 fs, h = h1 ++ h2 -> effs strict fs0 h1 fs ->
  (forall p, ~ In p (tmps out t) -> fs p = fs0 p) \/
  ((exists src ot ty, fs0 i = Some src /\ generate fl src = Some (ot, ty)) /\ (exists txt f, gofmt txt = Some f) /\
   ((forall p, ~ In p (out :: tmps out t) -> fs p = fs0 p) \/ ((forall p, ~ In p (t :: out :: tmps out t) -> fs p = fs0 p) /\ t <> ""))).
Proof. exact text_order. Qed.
Print Assumptions C69_order.

(** And without I/O errors, on a source the model accepts, the text makes both files and changes no other one. *)
Theorem C69_success : forall num ynum pos lit o opt_s opt_b gofmt T eager fs0 src ot ty f g, distinct num ynum -> lr_ok XG "spec" T = true -> let i := inputF opt_s in let out := outputF opt_s in let t := typesF opt_s in
  i <> "" -> out <> "" -> t <> "" -> fs0 i = Some src -> generate (the_flags opt_s opt_b) src = Some (ot, Some ty) ->
  fs0 (outTmp out) = None -> fs0 (toutTmp t) = None -> t <> out -> t <> outTmp out -> toutTmp t <> out -> gofmt ot = Some f -> gofmt ty = Some g ->
  exists k, forall N n, k <= N -> exists h st, ended (program num ynum pos lit o opt_s opt_b gofmt T eager N (S (S (S n)))) = Some (h, st) /\
  forall fs, effs true fs0 h fs -> st = Success /\ fs out = Some f /\ fs t = Some g /\ forall p, p <> out -> p <> t -> fs p = fs0 p.
Proof. exact text_success. Qed.
Print Assumptions C69_success.

(** A scanner, a state and a text. *)
Example C69_ex_scans : scans ex_consts ex_ext ex_num ex_ynum 1 (fun w => w) (fun _ => 0%Z) ex_lit (@tl gtok) (fun _ w => w) /\
  lst 1 1 2 0 true [("str", UStr "")] ex_glob ex_cells.
Proof. exact (conj ex_scans ex_lst). Qed.
Example C69_ex_tokens : match ex_lexed "typedef opaque type<8>;" with
  | Some [(a, _); (b, _); (c, s); (d, _); (e, z); (f, _); (g, _)] =>
      a = UInt (ex_ynum "KWTYPEDEF") /\ b = UInt (ex_ynum "KWOPAQUE") /\ c = UInt (ex_ynum "IDENT") /\ s = UStr "type" /\ d = UInt 60 /\
      e = UInt (ex_ynum "CONST") /\ z = UStr "8" /\ f = UInt 62 /\ g = UInt 59
  | _ => False
  end /\ ex_lexed "const c = 1.5;" = None.
Proof. vm_compute. repeat split. Qed.
(** A whole run of the text, with its system calls carried out. *)
Example C69_ex_main : ended (program ex_num ex_ynum (fun _ => 0%Z) ex_lit ex_results ex_opt (fun _ => None) Some xdr_tab (fun _ => false) 70 3) = Some (ex_hist, Success) /\ List.length ex_hist = 19.
Proof. exact ex_program. Qed.
Example C69_ex_effs : exists fs, effs true ex_fs ex_hist fs /\ fs "a.go" = Some ex_go /\ fs "t.go" = Some ex_ty /\ fs "a.go.tmp" = None /\ fs "t.go.tmp" = None.
Proof. exact ex_effs. Qed.
Example C69_ex_numbers : distinct ex_num ex_ynum /\ lr_ok XG "spec" xdr_tab = true.
Proof. exact ex_distinct_ok. Qed.
(** No input file: the usage message, and no system call on a file. *)
Example C69_ex_usage : ended (program ex_num ex_ynum (fun _ => 0%Z) ex_lit ex_results (fun _ => None) (fun _ => None) Some xdr_tab (fun _ => false) 70 3) = Some ([], Usage).
Proof. vm_compute. reflexivity. Qed.
(** The output cannot be formatted: a panic, after which the temporary files are gone. *)
Example C69_ex_panic : match ended (program ex_num ex_ynum (fun _ => 0%Z) ex_lit ex_results ex_opt (fun _ => None) (fun _ => None) xdr_tab (fun _ => false) 70 3) with
  | Some (h, st) => st = Panicked /\ map fst (skipn 11 h) = [ARead "a.go.tmp"; ARemove "t.go.tmp"; ARemove "a.go.tmp"]
  | None => False
  end.
Proof. vm_compute. split; reflexivity. Qed.
