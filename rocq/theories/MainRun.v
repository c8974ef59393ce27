(** The text of /repo/main.go, run by MainSem.v, makes the system calls that FileSys.v says. *)
From Coq Require Import Lia.
From Verif Require Import GoLex GLexP GLexQ XLex Gram GParse Emit FileSys SrcAst MainAst MainProg MainSem MainOut MainEmit MainGen MainScan YaccAst YaccProg YaccSem YaccLR YaccLRP YaccTab YaccParse YaccRun FileSysEx.
Open Scope string_scope.
Open Scope list_scope.

(** ** The world of a run: the system calls so far and their results; options declared (name and cell); paths of open files;
    the text given to the scanner and the number of tokens read of it. *)
Record osw : Type := mkOS { os_hist : list (act * res); os_flags : list (string * nat); os_fds : list string; os_src : string * nat }.

(** Objects of other packages: 0 is os.Stderr, 1 the scanner, 2 the file set, 3 its file, 4 an error, 5 and up the open files. *)
Section Numbers.
(** The numbers that go/token and goyacc give to tokens. *)
Variables (num ynum : string -> Z).
Definition os_consts (x : string) : option uv :=
  if String.eqb x "scanner.Scanner" then Some (UObj 1)
  else if String.eqb x "os.Stderr" then Some (UObj 0)
  else if String.eqb x "os.O_WRONLY" then Some (UInt 1)
  else if String.eqb x "os.O_CREATE" then Some (UInt 64)
  else if String.eqb x "os.O_EXCL" then Some (UInt 128)
  else if String.eqb x "os.O_TRUNC" then Some (UInt 512)
  else if GoLex.mem x y_names then Some (UInt (ynum x))
  else match strip "token." x with Some a => if GoLex.mem a tok_names then Some (UInt (num a)) else None | None => None end.
Definition distinct : Prop :=
  (forall a b, In a tok_names -> In b tok_names -> num a = num b -> a = b) /\ (forall a b, In a y_names -> In b y_names -> ynum a = ynum b -> a = b) /\ (forall a, In a y_names -> (255 < ynum a)%Z).
End Numbers.

Section Os.
Variables (num ynum : string -> Z).
Notation os_consts := (os_consts num ynum).
(** The positions that the scanner reports, and its texts of tokens other than identifiers and integers. *)
Variable pos : nat -> Z.
Variable lit : option gtok -> string.
(** The results of the system calls, in order: whatever they may be. *)
Variable o : nat -> res.
(** The options on the command line (main.go:13-19). *)
Variable opt_s : string -> option string.
Variable opt_b : string -> option bool.
Variable gofmt : string -> option string.

Definition sys (a : act) (w : osw) : res * osw :=
  let r := o (List.length (os_hist w)) in (r, mkOS (os_hist w ++ [(a, r)]) (os_flags w) (os_fds w) (os_src w)).
Definition err (r : res) : uv := match r with ROk _ => UNil | RErr => UObj 4 end.
(** Fprintf to a file is one write; to stderr it does not count. *)
Definition log (k : nat) (s : string) (w : osw) : osw :=
  match k with S (S (S (S (S i)))) => match nth_error (os_fds w) i with Some p => snd (sys (AAppend p s) w) | None => w end | _ => w end.
(** A new option. *)
Definition new_flag (x : string) (v : uv) (m : mm osw) : mres osw (list uv) :=
  let p := List.length (mm_cells m) in let w := mm_world m in
  MOk (mkMM (mm_glob m) (mm_cells m ++ [v]) (mm_defers m) (mkOS (os_hist w) (os_flags w ++ [(x, p)]) (os_fds w) (os_src w))) [UPtr p].
(** flag.Parse on a command line it accepts. *)
Definition set_flag (c : list uv) (f : string * nat) : list uv :=
  match nth_error c (snd f) with
  | Some (UStr _) => match opt_s (fst f) with Some s => nset c (snd f) (UStr s) | None => c end
  | Some (UBool _) => match opt_b (fst f) with Some b => nset c (snd f) (UBool b) | None => c end
  | _ => c
  end.
(** The scanner. *)
Definition os_toks (w : osw) : list gtok := match go_tokens (fst (os_src w)) with Some l => skipn (snd (os_src w)) l | None => [] end.
Definition os_lit (t : option gtok) : string := match t with Some (GIdent s) | Some (GInt s) => s | t => lit t end.
Definition os_adv (w : osw) : osw := mkOS (os_hist w) (os_flags w) (os_fds w) (fst (os_src w), S (snd (os_src w))).
Definition os_ext (f : string) (args : list uv) (m : mm osw) : mres osw (list uv) :=
  let '(mkMM g c d w) := m in
  let world w := mkMM g c d w in
  match f, args with
  | "flag.String", [UStr x; UStr v; UStr _] => new_flag x (UStr v) m
  | "flag.Bool", [UStr x; UBool v; UStr _] => new_flag x (UBool v) m
  | "flag.Parse", [] => MOk (mkMM g (fold_left set_flag (os_flags w) c) d w) []
  | "write", [UObj k; UStr s] => MOk (put log k s m) []
  | "os.Exit", [UInt 1] => MExit m
  | "ioutil.ReadFile", [UStr p] => let (r, w) := sys (ARead p) w in MOk (world w) [match r with ROk s => UStr s | RErr => UNil end; err r]
  | "token.NewFileSet", [] => MOk m [UObj 2]
  | ".AddFile", [UObj 2; UStr _; UInt (-1); UInt _] => MOk m [UObj 3]
  | ".Init", [UObj 1; UObj 3; UStr s; UNil; UInt 0] => MOk (world (mkOS (os_hist w) (os_flags w) (os_fds w) (s, 0))) []
  | ".Scan", [UObj 1] => MOk (world (os_adv w)) [UInt (pos (snd (os_src w))); UInt (num (tok_name (hd_error (os_toks w)))); UStr (os_lit (hd_error (os_toks w)))]
  | "fmt.Printf", _ => MOk m [UInt 0; UNil]
  | "os.OpenFile", [UStr p; UInt 705; UInt 438] =>
      let (r, w) := sys (ACreate p) w in
      match r with
      | ROk _ => MOk (world (mkOS (os_hist w) (os_flags w) (os_fds w ++ [p]) (os_src w))) [UObj (5 + List.length (os_fds w)); UNil]
      | RErr => MOk (world w) [UNil; UObj 4]
      end
  | "os.Remove", [UStr p] => let (r, w) := sys (ARemove p) w in MOk (world w) [err r]
  | ".Close", [UObj k] => MOk m [UNil]
  | "format.Source", [UStr s] => MOk m match gofmt s with Some t => [UStr t; UNil] | None => [UNil; UObj 4] end
  | "ioutil.WriteFile", [UStr p; UStr s; UInt 438] =>
      let (r, w) := sys (ATrunc p) w in
      match r with RErr => MOk (world w) [UObj 4] | ROk _ => let (r, w) := sys (AAppend p s) w in MOk (world w) [err r] end
  | _, _ => MStuck
  end.

(** xdrParse, which goyacc makes of /repo/xdr.y: the driver of YaccRun.v, with these tables. *)
Variable T : lrtab.
Variable eager : nat -> bool.
(** [N] bounds the steps and the depth of calls. *)
Definition with_parse (N : nat) (f : string) (args : list uv) (m : mm osw) : mres osw (list uv) :=
  if String.eqb f "xdrParse" then xdr_parse os_consts os_ext xdr_y_prog T eager N N args m else os_ext f args m.

(** ** A command of FileSys.v with these results *)
Fixpoint follow (c : cmd) (h : list (act * res)) : list (act * res) * status :=
  match c with
  | Done st => (h, st)
  | Do a k => let r := o (List.length h) in follow (k r) (h ++ [(a, r)])
  end.
(** How a run ended. *)
Definition ended {A} (r : mres osw A) : option (list (act * res) * status) :=
  match r with
  | MOk m _ => Some (os_hist (mm_world m), Success)
  | MPanic m => Some (os_hist (mm_world m), Panicked)
  | MExit m => Some (os_hist (mm_world m), Usage)
  | MStuck => None
  end.

(** The options, with the defaults of main.go:13-19. *)
Definition str_of (x d : string) : string := match opt_s x with Some s => s | None => d end.
Definition bool_of (x : string) : bool := match opt_b x with Some b => b | None => false end.
Definition inputF := str_of "i" "". Definition outputF := str_of "o" "". Definition typesF := str_of "t" "".
Definition the_flags : flags := mkFlags (str_of "p" "main") (with_types typesF) (bool_of "unsigned-enum") (str_of "const-type" "").

Definition start : mm osw := mkMM [] [] [] (mkOS [] [] [] ("", 0)).
(** The whole program: the variables of the package, then main. *)
Definition program (N n : nat) : mres osw (list uv) :=
  mbind (uinit main_pkgs os_consts main_pkg (with_parse N) n main_pkg start) (fun _ m => urun main_pkgs os_consts main_pkg (with_parse N) n "main" [] m).

Section Run.
Variable N : nat.
Notation ext := (with_parse N).
Notation run := (urun main_pkgs os_consts main_pkg ext).
Notation ex n := (uexec main_pkgs os_consts main_pkg ext (run n)).

Definition globals (wo wt : uv) : uenv :=
  [("inputFile", UPtr 0); ("outputFile", UPtr 1); ("outputPackage", UPtr 2); ("typesFile", UPtr 3); ("debugFlag", UPtr 4); ("unsignedEnumFlag", UPtr 5); ("constTypeFlag", UPtr 6);
   ("out", wo); ("tout", wt)].
Definition declared : list (string * nat) := [("i", 0); ("o", 1); ("p", 2); ("t", 3); ("d", 4); ("unsigned-enum", 5); ("const-type", 6)].
Lemma init_text n : uinit main_pkgs os_consts main_pkg ext (S n) main_pkg start =
  MOk (mkMM (globals UNil UNil) [UStr ""; UStr ""; UStr "main"; UStr ""; UBool false; UBool false; UStr ""] [] (mkOS [] declared [] ("", 0))) tt.
Proof. vm_compute. reflexivity. Qed.
Definition params : list uv := [UStr inputF; UStr outputF; UStr (str_of "p" "main"); UStr typesF; UBool (bool_of "d"); UBool (bool_of "unsigned-enum"); UStr (str_of "const-type" "")].
Lemma nset_same (c : list uv) p v : nth_error c p = Some v -> nset c p v = c.
Proof. revert p. induction c as [|a c IH]; intros [|p] E; try discriminate; cbn in *; [congruence|]. rewrite IH by exact E. reflexivity. Qed.
Lemma set_s c x p d : nth_error c p = Some (UStr d) -> set_flag c (x, p) = nset c p (UStr (str_of x d)).
Proof. intros E. unfold set_flag, str_of. cbn [fst snd]. rewrite E. destruct (opt_s x); [reflexivity|]. rewrite nset_same by exact E. reflexivity. Qed.
Lemma set_b c x p : nth_error c p = Some (UBool false) -> set_flag c (x, p) = nset c p (UBool (bool_of x)).
Proof. intros E. unfold set_flag, bool_of. cbn [fst snd]. rewrite E. destruct (opt_b x); [reflexivity|]. rewrite nset_same by exact E. reflexivity. Qed.
Lemma parse_text : fold_left set_flag declared [UStr ""; UStr ""; UStr "main"; UStr ""; UBool false; UBool false; UStr ""] = params.
Proof.
  unfold declared. cbn [fold_left]. rewrite (set_s _ "i" 0 "") by reflexivity. cbn [nset]. rewrite (set_s _ "o" 1 "") by reflexivity. cbn [nset]. rewrite (set_s _ "p" 2 "main") by reflexivity. cbn [nset].
  rewrite (set_s _ "t" 3 "") by reflexivity. cbn [nset]. rewrite (set_b _ "d" 4) by reflexivity. cbn [nset]. rewrite (set_b _ "unsigned-enum" 5) by reflexivity. cbn [nset].
  rewrite (set_s _ "const-type" 6 "") by reflexivity. reflexivity.
Qed.

Notation call f args m := (run _ f args m).
Lemma step n s b en m m' en' : ex n s en m = MOk m' (en', KNext) -> useq (ex n) (s :: b) en m = useq (ex n) b en' m'.
Proof. intros E. cbn [useq]. rewrite E. reflexivity. Qed.
Lemma step_panic n s b en m m' : ex n s en m = MPanic m' -> useq (ex n) (s :: b) en m = MPanic m'.
Proof. intros E. cbn [useq]. rewrite E. reflexivity. Qed.
Lemma step_exit n s b en m m' : ex n s en m = MExit m' -> useq (ex n) (s :: b) en m = MExit m'.
Proof. intros E. cbn [useq]. rewrite E. reflexivity. Qed.

Lemma follow_sys a k h w r w' : sys a w = (r, w') -> h = os_hist w -> follow (Do a k) h = follow (k r) (os_hist w').
Proof. unfold sys. intros [= <- <-] ->. reflexivity. Qed.
Lemma sys_parts a w r w' : sys a w = (r, w') -> os_fds w' = os_fds w /\ os_src w' = os_src w.
Proof. unfold sys. intros [= <- <-]. split; reflexivity. Qed.

(** *** refmt (main.go:87-102) *)
Definition refmt_w (a b : string) (w : osw) : osw * bool :=
  let (r, w) := sys (ARead a) w in
  match r with
  | RErr => (w, false)
  | ROk buf =>
      match gofmt buf with
      | None => (w, false)
      | Some txt =>
          let (r, w) := sys (ATrunc b) w in
          match r with
          | RErr => (w, false)
          | ROk _ => let (r, w) := sys (AAppend b txt) w in (w, match r with ROk _ => true | RErr => false end)
          end
      end
  end.
Lemma follow_refmt a b fail k w : follow (refmt gofmt a b fail k) (os_hist w) = let (w', ok) := refmt_w a b w in follow (if ok then k else fail) (os_hist w').
Proof.
  unfold refmt, refmt_w, sys. cbn [follow]. destruct (o (List.length (os_hist w))) as [buf|]; cbn [os_hist]; [|reflexivity]. destruct (gofmt buf) as [txt|]; [|reflexivity]. cbn [follow].
  destruct (o (List.length (os_hist w ++ _))); cbn [os_hist]; [|reflexivity]. cbn [follow]. destruct (o (List.length ((os_hist w ++ _) ++ _))); reflexivity.
Qed.
Definition refmt_body : list ms := match main_refmt with MFunc _ _ _ _ b _ => b | _ => [] end.
Lemma refmt_found : find_func main_pkg "refmt" = Some (["infile"; "outfile"], 0, refmt_body).
Proof. vm_compute. reflexivity. Qed.
Ltac sysd := repeat match goal with E : sys _ _ = _ |- _ => rewrite E | E : gofmt _ = _ |- _ => rewrite E | E : String.eqb _ _ = _ |- _ => rewrite E | E : os_fds _ = _ |- _ => rewrite E end.
Ltac go := cbn -[urun main_pkg with_parse sys]; rewrite ?ext_call by reflexivity; cbn -[urun main_pkg sys]; sysd; cbn -[urun main_pkg sys].
Ltac nx := erewrite step; [|solve [go; reflexivity]].
Ltac pn := erewrite step_panic; [|solve [go; reflexivity]].
Lemma refmt_text n a b g c d w : run (S (S n)) "refmt" [UStr a; UStr b] (mkMM g c d w) =
  let (w', ok) := refmt_w a b w in if ok then MOk (mkMM g c d w') [] else MPanic (mkMM g c d w').
Proof.
  rewrite (run_func _ _ (S n) "refmt" _ _ _ [UStr a; UStr b] _ g c d w refmt_found eq_refl). unfold refmt_body, main_refmt, refmt_w.
  destruct (sys (ARead a) w) as [[buf|] w1] eqn:S1; [|nx; pn; reflexivity].
  nx. nx. destruct (gofmt buf) as [txt|] eqn:G; [|nx; pn; reflexivity].
  nx. nx. destruct (sys (ATrunc b) w1) as [[x|] w2] eqn:S2; [|nx; pn; reflexivity].
  destruct (sys (AAppend b txt) w2) as [[y|] w3] eqn:S3; [|nx; pn; reflexivity].
  nx. nx. reflexivity.
Qed.

(** *** The deferred removals *)
Definition removed (ps : list string) (w : osw) : osw := fold_left (fun w p => snd (sys (ARemove p) w)) ps w.
Lemma follow_defers ps st w : follow (defers ps st) (os_hist w) = (os_hist (removed ps w), st).
Proof. revert w. induction ps as [|p ps IH]; intros w; [reflexivity|]. exact (IH (snd (sys (ARemove p) w))). Qed.
Definition rm (p : string) : string * list uv := ("os.Remove", [UStr p]).
Lemma deferred_text n ps g c d w : udeferred ext (run (S n)) (map rm ps) (mkMM g c d w) = MOk (mkMM g c d (removed ps w)) tt.
Proof.
  revert w. induction ps as [|p ps IH]; intros w; [reflexivity|]. cbn [map udeferred rm]. unfold uinvoke. change (ubuiltin ext "os.Remove" [UStr p] (mkMM g c d w)) with (@None (mres osw uv)). cbv iota.
  rewrite ext_call by reflexivity. change (ext "os.Remove" [UStr p] (mkMM g c d w)) with (let (r, w) := sys (ARemove p) w in MOk (mkMM g c d w) [err r]). unfold sys. cbn [mbind]. apply IH.
Qed.

(** *** The writes of the parse *)
Lemma log_fds k s w : os_fds (log k s w) = os_fds w.
Proof. destruct k as [|[|[|[|[|i]]]]]; try reflexivity. cbn [log]. destruct (nth_error (os_fds w) i); reflexivity. Qed.
Lemma follow_writes fo ft io it ws : forall k g c d w, nth_error (os_fds w) io = Some (outTmp fo) -> nth_error (os_fds w) it = Some (if with_types ft then toutTmp ft else outTmp fo) ->
  follow (writes fo ft ws k) (os_hist w) = follow k (os_hist (mm_world (play (5 + io) (5 + it) log ws (mkMM g c d w)))).
Proof.
  induction ws as [|[s|s] ws IH]; intros k g c d w Ho Ht; [reflexivity| |]; cbn [writes follow].
  - change (play _ _ log (WOut s :: ws) (mkMM g c d w)) with (play (5 + io) (5 + it) log ws (mkMM g c d (log (5 + io) s w))). rewrite <- (IH k g c d (log (5 + io) s w)) by (rewrite log_fds; assumption). cbn [log plus]. rewrite Ho. reflexivity.
  - change (play _ _ log (WTout s :: ws) (mkMM g c d w)) with (play (5 + io) (5 + it) log ws (mkMM g c d (log (5 + it) s w))). rewrite <- (IH k g c d (log (5 + it) s w)) by (rewrite log_fds; assumption). cbn [log plus]. rewrite Ht. reflexivity.
Qed.

(** *** main (main.go:24-85) *)
Section Params.
Variables (fi fo fp ft fc : string) (fd fu : bool).
Definition fl0 : flags := mkFlags fp (with_types ft) fu fc.
Definition cells0 : list uv := [UStr fi; UStr fo; UStr fp; UStr ft; UBool fd; UBool fu; UStr fc].
Definition cells1 : list uv := cells0 ++ [UStruct "lexer" [("s", UObj 1)]].
Definition main_body : list ms := match main_main with MFunc _ _ _ _ b _ => b | _ => [] end.
Lemma main_found : find_func main_pkg "main" = Some ([], 0, main_body).
Proof. vm_compute. reflexivity. Qed.
(** The parse of [src]. *)
Definition parse_does (src : string) (kt : nat) : Prop := forall d w, os_src w = (src, 0) -> exists ws lv w',
  os_hist w' = os_hist (mm_world (play 5 kt log ws (mkMM (globals (UObj 5) (UObj kt)) cells1 d w))) /\
  let r := ext "xdrParse" [UPtr 7] (mkMM (globals (UObj 5) (UObj kt)) cells1 d w) in let m' := mkMM (globals (UObj 5) (UObj kt)) (cells1 ++ [lv]) d w' in
  match front src with
  | Some ds =>
      match emit_list (emit fl0) ds with
      | Some ws' => eqw ws ws' /\ r = MOk m' [UInt 0]
      | None => r = MPanic m'
      end
  | None => r = MPanic m'
  end.
Definition main_ok (n : nat) (c : list uv) (w : osw) : Prop := exists pieces partial, cut_up fl0 pieces /\
  ended (run (S (S (S n))) "main" [] (mkMM (globals UNil UNil) c [] w)) = Some (follow (main fi fo ft fl0 gofmt partial pieces) (os_hist w)).
Definition at_src (src : string) (a : list write) (f : string -> list write) (s : string) : list write := if String.eqb s src then a else f s.
Ltac tidy := unfold with_glob, with_defers, put; cbn [mm_glob mm_cells mm_defers mm_world log nth_error os_fds]; sysd; cbn [nth_error].
Ltac named p t r w S F G :=
  match goal with |- context [sys (AAppend ?a ?s) ?u] => change (sys (AAppend a s) u) with (sys (AAppend p t) u); destruct (sys (AAppend p t) u) as [r w] eqn:S end;
  pose proof (sys_parts _ _ _ _ S) as [F G]; cbn [os_fds os_src] in F, G; cbn [snd].
Ltac none := exists (whole fl0), (fun _ => []); split; [apply whole_cut|].
(** From the parse on (main.go:77-84). *)
Definition main_tail : list ms := skipn 19 main_body.
Definition tail_cmd (partial pieces : string -> list write) (src : string) (ps : list string) : cmd :=
  xdrParse fo ft fl0 partial pieces src (defers ps Panicked)
    (refmt gofmt (outTmp fo) fo (defers ps Panicked) (if with_types ft then refmt gofmt (toutTmp ft) ft (defers ps Panicked) (defers ps Success) else defers ps Success)).
Lemma play_state ko kt ws g c d w : exists w', play ko kt log ws (mkMM g c d w) = mkMM g c d w'.
Proof. destruct (play_parts ko kt log ws (mkMM g c d w)) as (A & B & C). destruct (play ko kt log ws (mkMM g c d w)) as [g' c' d' w']. cbn in A, B, C. subst. eauto. Qed.
Lemma at_same src a f : at_src src a f src = a. Proof. unfold at_src. rewrite String.eqb_refl. reflexivity. Qed.
Lemma at_cut src ws : (forall ds ws', front src = Some ds -> emit_list (emit fl0) ds = Some ws' -> eqw ws ws') -> cut_up fl0 (at_src src ws (whole fl0)).
Proof. intros E s ds ws' F G. unfold at_src. destruct (String.eqb_spec s src) as [->|]; [eapply E; eassumption|eapply whole_cut; eassumption]. Qed.
Lemma after_panic n ps g c w : ended (after os_consts ext (S n) 0 [] (MPanic (mkMM g c (map rm ps) w))) = Some (follow (defers ps Panicked) (os_hist w)).
Proof. unfold after. unfold with_defers at 1. cbn [mm_defers mm_glob mm_cells mm_world]. rewrite deferred_text. rewrite follow_defers. reflexivity. Qed.
Lemma after_ok n ps g c w en : ended (after os_consts ext (S n) 0 [] (MOk (mkMM g c (map rm ps) w) (en, KNext))) = Some (follow (defers ps Success) (os_hist w)).
Proof. unfold after. unfold with_defers at 1. cbn [mm_defers mm_glob mm_cells mm_world]. rewrite deferred_text. rewrite follow_defers. reflexivity. Qed.
Lemma tail_text n src tf ts e1 e2 ps w : let kt := if with_types ft then 6 else 5 in
  (with_types ft = true -> tf = UObj 6 /\ ts = toutTmp ft) -> os_fds w = (if with_types ft then [outTmp fo; toutTmp ft] else [outTmp fo]) -> os_src w = (src, 0) -> parse_does src kt ->
  exists pieces partial, cut_up fl0 pieces /\
  ended (after os_consts ext (S (S n)) 0 [] (useq (ex (S (S n))) main_tail
    [("toutf", tf); ("toutTmp", UStr ts); ("err", e1); ("outf", UObj 5); ("outTmp", UStr (outTmp fo)); ("l", URef 7); ("f", UObj 3); ("fset", UObj 2); ("err", e2); ("src", UStr src)]
    (mkMM (globals (UObj 5) (UObj kt)) cells1 (map rm ps) w))) = Some (follow (tail_cmd partial pieces src ps) (os_hist w)).
Proof.
  intros kt Ht Hf Hs HP. destruct (HP (map rm ps) w Hs) as (ws & lv & w5 & Hw & P). cbv zeta in P. unfold main_tail, main_body, main_main, skipn.
  assert (forall k, follow (writes fo ft ws k) (os_hist w) = follow k (os_hist (mm_world (play 5 kt log ws (mkMM (globals (UObj 5) (UObj kt)) cells1 (map rm ps) w))))) as FW.
  { intros k. subst kt. destruct (with_types ft) eqn:Et.
    - apply (follow_writes fo ft 0 1); rewrite Hf, ?Et; reflexivity.
    - apply (follow_writes fo ft 0 0); rewrite Hf, ?Et; reflexivity. }
  rewrite <- Hw in FW. clear Hw.
  assert (forall r, ext "xdrParse" [UPtr 7] (mkMM (globals (UObj 5) (UObj kt)) cells1 (map rm ps) w) = r -> forall en, uassoc "l" en = Some (URef 7) -> uassoc "xdrParse" en = None ->
    ex (S (S n)) (TExpr (XCall (XId "xdrParse") [XUn "&" (XId "l")])) en (mkMM (globals (UObj 5) (UObj kt)) cells1 (map rm ps) w) = mbind r (fun _ m => MOk m (en, KNext))) as XP.
  { intros r E en L X. cbn -[urun main_pkg with_parse globals cells1 map]. rewrite X, L. cbn -[urun main_pkg with_parse globals cells1 map]. rewrite ext_call by reflexivity. rewrite E. destruct r as [? [|? [|]]| | |]; reflexivity. }
  assert ((exists ds ws', front src = Some ds /\ emit_list (emit fl0) ds = Some ws' /\ eqw ws ws' /\ ext "xdrParse" [UPtr 7] (mkMM (globals (UObj 5) (UObj kt)) cells1 (map rm ps) w) = MOk (mkMM (globals (UObj 5) (UObj kt)) (cells1 ++ [lv]) (map rm ps) w5) [UInt 0]) \/
    ((forall ds, front src = Some ds -> emit_list (emit fl0) ds = None) /\ ext "xdrParse" [UPtr 7] (mkMM (globals (UObj 5) (UObj kt)) cells1 (map rm ps) w) = MPanic (mkMM (globals (UObj 5) (UObj kt)) (cells1 ++ [lv]) (map rm ps) w5))) as [(ds & ws' & F & G & Q & P')|[F P']].
  { destruct (front src) as [ds|]; [|right; split; [discriminate|exact P]]. destruct (emit_list (emit fl0) ds) as [ws'|] eqn:G; [left|right; split; [intros ? [= <-]; exact G|exact P]]. destruct P as [Q P]. eauto 8. }
  2:{ erewrite step_panic; [|rewrite (XP _ P'); reflexivity]. exists (whole fl0), (at_src src ws (fun _ => [])). split; [apply whole_cut|]. unfold tail_cmd, xdrParse. rewrite at_same.
      rewrite after_panic. destruct (front src) as [ds|]; [rewrite (F ds eq_refl)|]; rewrite FW; reflexivity. }
  exists (at_src src ws (whole fl0)), (fun _ => []). split; [apply at_cut; intros ? ? F' G'; rewrite F in F'; injection F' as <-; rewrite G in G'; injection G' as <-; exact Q|].
  unfold tail_cmd, xdrParse. rewrite F, G, at_same, FW. erewrite step; [|rewrite (XP _ P'); reflexivity]. clear XP FW P P'. rewrite follow_refmt.
  unfold cells1, cells0. cbn [app]. unfold globals. generalize (map rm ps) (after_panic (S n) ps) (after_ok (S n) ps). intros dd AP AO.
  nx. destruct (refmt_w (outTmp fo) fo w5) as [w6 ok6] eqn:R6.
  destruct ok6.
  2:{ erewrite step_panic; [|cbn -[urun main_pkg with_parse sys]; rewrite refmt_text, R6; reflexivity]. rewrite AP. reflexivity. }
  erewrite step; [|cbn -[urun main_pkg with_parse sys]; rewrite refmt_text, R6; reflexivity].
  destruct (with_types ft) eqn:Et; unfold with_types in Et; apply (f_equal negb) in Et; rewrite negb_involutive in Et; cbn [negb] in Et.
  2:{ nx. cbn [useq]. rewrite AO. reflexivity. }
  destruct (Ht eq_refl) as [-> ->]. rewrite follow_refmt. destruct (refmt_w (toutTmp ft) ft w6) as [w7 ok7] eqn:R7.
  destruct ok7.
  - erewrite step. 2:{ cbn -[urun main_pkg with_parse sys]. rewrite Et. cbn [negb]. unfold ublk. nx. erewrite step; [|cbn -[urun main_pkg with_parse sys]; rewrite refmt_text, R7; reflexivity]. reflexivity. }
    cbn [useq]. rewrite AO. reflexivity.
  - erewrite step_panic. 2:{ cbn -[urun main_pkg with_parse sys]. rewrite Et. cbn [negb]. unfold ublk. nx. erewrite step_panic; [|cbn -[urun main_pkg with_parse sys]; rewrite refmt_text, R7; reflexivity]. reflexivity. }
    rewrite AP. reflexivity.
Qed.
Lemma main_text n c w : fold_left set_flag (os_flags w) c = cells0 -> os_fds w = [] ->
  (forall src, o (List.length (os_hist w)) = ROk src -> parse_does src (if with_types ft then 6 else 5)) -> main_ok n c w.
Proof.
  intros Hc Hf HP. unfold main_ok. rewrite (run_func _ _ (S (S n)) "main" _ _ _ [] _ (globals UNil UNil) c [] w main_found eq_refl). unfold main_body, main_main.
  erewrite step. 2:{ cbn -[urun main_pkg with_parse sys]. rewrite ext_call by reflexivity. cbn -[urun main_pkg sys fold_left]. rewrite Hc. reflexivity. }
  destruct (String.eqb fi "") eqn:Ei; [erewrite step_exit; [|solve [go; reflexivity]]; none; unfold main; rewrite Ei; reflexivity|]. nx.
  destruct (String.eqb fo "") eqn:Eo; [erewrite step_exit; [|solve [go; reflexivity]]; none; unfold main; rewrite Ei, Eo; reflexivity|]. nx.
  destruct (sys (ARead fi) w) as [[src|] w1] eqn:S1.
  2:{ nx. pn. none. unfold main. rewrite Ei, Eo, (follow_sys _ _ _ _ _ _ S1 eq_refl). reflexivity. }
  specialize (HP src ltac:(unfold sys in S1; injection S1; auto)). pose proof (sys_parts _ _ _ _ S1) as [F1 _]. rewrite Hf in F1.
  nx. nx. nx. nx. nx. nx. nx. change (scat fo ".tmp") with (outTmp fo). rewrite ?F1.
  destruct (sys (ACreate (outTmp fo)) (mkOS (os_hist w1) (os_flags w1) [] (src, 0))) as [[x|] w2] eqn:S2.
  2:{ nx. pn. none. unfold main. rewrite Ei, Eo, (follow_sys _ _ _ _ _ _ S1 eq_refl), (follow_sys _ _ _ _ _ _ S2 eq_refl). reflexivity. }
  pose proof (sys_parts _ _ _ _ S2) as [F2 G2]. cbn [os_fds os_src] in F2, G2.
  nx. nx. nx. nx. tidy. nx. tidy. named (outTmp fo) (tout_header fl0) r3 w3 S3 F3 G3.
  nx. tidy. named (outTmp fo) import_line r4 w4 S4 F4 G4. rewrite F3 in F4. rewrite G3, G2 in G4.
  nx. nx. destruct (String.eqb ft "") eqn:Et.
  - nx. tidy.
    assert (with_types ft = false) as Wt by (unfold with_types; rewrite Et; reflexivity). rewrite Wt in HP.
    destruct (tail_text n src UNil "" UNil UNil [outTmp fo] w4) as (pieces & partial & C & E); [rewrite Wt; discriminate|rewrite Wt; exact F4|exact G4|rewrite Wt; exact HP|].
    rewrite Wt in E. exists pieces, partial. split; [exact C|]. refine (eq_trans E _). unfold main. rewrite Ei, Eo, Wt.
    rewrite (follow_sys _ _ _ _ _ _ S1 eq_refl), (follow_sys _ _ _ _ _ _ S2 eq_refl), (follow_sys _ _ _ _ _ _ S3 eq_refl), (follow_sys _ _ _ _ _ _ S4 eq_refl). unfold tail_cmd. rewrite Wt. reflexivity.
  - assert (with_types ft = true) as Wt by (unfold with_types; rewrite Et; reflexivity). rewrite Wt in HP.
    destruct (sys (ACreate (toutTmp ft)) w4) as [[x5|] w5] eqn:S5.
    2:{ erewrite step_panic. 2:{ cbn -[urun main_pkg with_parse sys]. rewrite Et. cbn [negb]. unfold ublk. nx. change (scat ft ".tmp") with (toutTmp ft). nx. pn. reflexivity. }
        none. change [("os.Remove", [UStr (outTmp fo)])] with (map rm [outTmp fo]). rewrite after_panic. unfold main. rewrite Ei, Eo, Wt.
        rewrite (follow_sys _ _ _ _ _ _ S1 eq_refl), (follow_sys _ _ _ _ _ _ S2 eq_refl), (follow_sys _ _ _ _ _ _ S3 eq_refl), (follow_sys _ _ _ _ _ _ S4 eq_refl), (follow_sys _ _ _ _ _ _ S5 eq_refl). reflexivity. }
    pose proof (sys_parts _ _ _ _ S5) as [F5 G5]. rewrite F4 in F5. rewrite G4 in G5.
    destruct (sys (AAppend (toutTmp ft) (tout_header fl0)) (mkOS (os_hist w5) (os_flags w5) [outTmp fo; toutTmp ft] (os_src w5))) as [r6 w6] eqn:S6. pose proof (sys_parts _ _ _ _ S6) as [F6 G6]. cbn [os_fds os_src] in F6, G6. rewrite G5 in G6.
    destruct (tail_text n src (UObj 6) (toutTmp ft) UNil UNil [toutTmp ft; outTmp fo] w6) as (pieces & partial & C & E); [intros _; split; reflexivity|rewrite Wt; exact F6|exact G6|rewrite Wt; exact HP|].
    rewrite Wt in E. exists pieces, partial. split; [exact C|].
    erewrite step. 2:{ cbn -[urun main_pkg with_parse sys]. rewrite Et. cbn [negb]. unfold ublk. nx. change (scat ft ".tmp") with (toutTmp ft). nx. nx. nx. nx. tidy. nx. tidy.
      match goal with |- context [sys (AAppend ?a ?s) ?u] => change (sys (AAppend a s) u) with (sys (AAppend (toutTmp ft) (tout_header fl0)) u) end. rewrite ?G5 in S6 |- *. rewrite S6. reflexivity. }
    refine (eq_trans E _). unfold main. rewrite Ei, Eo, Wt.
    rewrite (follow_sys _ _ _ _ _ _ S1 eq_refl), (follow_sys _ _ _ _ _ _ S2 eq_refl), (follow_sys _ _ _ _ _ _ S3 eq_refl), (follow_sys _ _ _ _ _ _ S4 eq_refl), (follow_sys _ _ _ _ _ _ S5 eq_refl), (follow_sys _ _ _ _ _ _ S6 eq_refl). unfold tail_cmd. rewrite Wt. reflexivity.
Qed.
End Params.
End Run.
End Os.

Section Top.
Variables (num ynum : string -> Z) (pos : nat -> Z) (lit : option gtok -> string).
Variables (o : nat -> res) (opt_s : string -> option string) (opt_b : string -> option bool) (gofmt : string -> option string).
Variables (T : lrtab) (eager : nat -> bool).
Hypothesis D : distinct num ynum.
Hypothesis OK : lr_ok XG "spec" T = true.
Notation log := (log o).
Notation os_ext := (os_ext num pos lit o opt_s opt_b gofmt).
Notation os_consts := (os_consts num ynum).
Lemma os_write k s m : os_ext "write" [UObj k; UStr s] m = MOk (put log k s m) [].
Proof. destruct m. reflexivity. Qed.
Lemma strip_token a : strip "token." ("token." ++ a)%string = Some a. Proof. destruct a; reflexivity. Qed.
Lemma mem_of x l : In x l -> GoLex.mem x l = true.
Proof. intros I. unfold GoLex.mem. apply existsb_exists. exists x. split; [exact I|apply String.eqb_refl]. Qed.
Lemma os_scans : scans os_consts os_ext num ynum 1 os_toks (fun w => pos (snd (os_src w))) (os_lit lit) os_adv (fun _ w => w).
Proof.
  destruct D as (D1 & D2 & D3). split; try assumption; try reflexivity.
  - intros a I. unfold MainRun.os_consts. rewrite strip_token, (mem_of _ _ I). destruct a as [|c a]; reflexivity.
  - intros a I. apply mem_of in I. unfold MainRun.os_consts. rewrite I. revert I. unfold GoLex.mem, y_names. cbn [existsb]. intros I.
    repeat (apply orb_true_iff in I; destruct I as [I|I]; [apply String.eqb_eq in I; subst a; reflexivity|]). discriminate I.
  - intros w. unfold os_toks, os_adv. cbn [os_src fst snd]. destruct (go_tokens (fst (os_src w))) as [l|]; [|reflexivity]. generalize (snd (os_src w)). intros i. revert l. induction i as [|i IH]; intros [|x l]; try reflexivity. apply IH.
Qed.
Definition os_vis (w : osw) : list (act * res) * list string := (os_hist w, os_fds w).
Lemma log_vis i s w w' : os_vis w = os_vis w' -> os_vis (log i s w) = os_vis (log i s w').
Proof.
  unfold os_vis. intros [= E F]. destruct i as [|[|[|[|[|i]]]]]; cbn [MainRun.log]; try (rewrite E, F; reflexivity). rewrite F. destruct (nth_error (os_fds w') i); [|rewrite E, F; reflexivity]. unfold sys. cbn [snd os_hist os_fds]. rewrite E, F. reflexivity.
Qed.
Lemma log_toks i s w : os_toks (log i s w) = os_toks w.
Proof. destruct i as [|[|[|[|[|i]]]]]; try reflexivity. cbn [MainRun.log]. destruct (nth_error (os_fds w) i); reflexivity. Qed.
Lemma play_world kt ws g c d : forall w, mm_world (play 5 kt log ws (mkMM g c d w)) = wplay 5 kt log ws w.
Proof. induction ws as [|[s|s] ws IH]; intros w; [reflexivity| |]; apply IH. Qed.
Lemma parse_enough src fi fo fp ft fc fd fu kt : exists k, forall N, k <= N -> parse_does num ynum pos lit o opt_s opt_b gofmt T eager N fi fo fp ft fc fd fu src kt.
Proof.
  destruct (go_total src) as (gts & Eg & Fg).
  destruct (parse_run os_consts os_ext num ynum 1 os_toks _ _ os_adv _ os_scans (fl0 fp ft fc fu) 5 kt 6 5 log os_write os_vis log_vis (fun _ => eq_refl) (fun _ _ => eq_refl) log_toks T OK eager gts Fg) as [k K].
  exists k. intros N L d w Sw.
  destruct (K N N L L 7 4 fd (globals (UObj 5) (UObj kt)) (cells1 fi fo fp ft fc fd fu) d w) as (ws0 & lv & w' & Vw & R).
  { split; try reflexivity; [|split; reflexivity]. intros a I. cbn [In] in I. repeat (destruct I as [<-|I]; [reflexivity|]). destruct I. }
  { unfold os_toks. rewrite Sw. cbn [fst snd]. rewrite Eg. reflexivity. }
  exists ws0, lv, w'. split; [rewrite play_world; injection Vw as E _; exact E|]. cbv zeta in *. unfold front, x_tokens. rewrite Eg. unfold with_parse. cbn [String.eqb Ascii.eqb Bool.eqb].
  destruct (all_some Lex gts) as [ts|]; [|exact R]. destruct (parse ts) as [ds|]; exact R.
Qed.
Notation fl := (the_flags opt_s opt_b).
(** The whole program: it ends, with the calls and the status of the model. *)
Theorem program_text : exists k, forall N n, k <= N -> exists pieces partial, cut_up fl pieces /\
  ended (program num ynum pos lit o opt_s opt_b gofmt T eager N (S (S (S n)))) = Some (follow o (main (inputF opt_s) (outputF opt_s) (typesF opt_s) fl gofmt partial pieces) []).
Proof.
  assert (exists k, forall N src, k <= N -> o 0 = ROk src -> parse_does num ynum pos lit o opt_s opt_b gofmt T eager N (inputF opt_s) (outputF opt_s) (str_of opt_s "p" "main") (typesF opt_s) (str_of opt_s "const-type" "") (bool_of opt_b "d") (bool_of opt_b "unsigned-enum")
    src (if with_types (typesF opt_s) then 6 else 5)) as [k K].
  { destruct (o 0) as [src|]; [|exists 0; discriminate]. edestruct (parse_enough src) as [k K]. exists k. intros N s L [= <-]. apply K, L. }
  exists k. intros N n L. unfold program. rewrite init_text. cbn [mbind].
  apply (main_text num ynum pos lit o opt_s opt_b gofmt T eager N (inputF opt_s) (outputF opt_s) (str_of opt_s "p" "main") (typesF opt_s) (str_of opt_s "const-type" "") (bool_of opt_b "d") (bool_of opt_b "unsigned-enum") n
    [UStr ""; UStr ""; UStr "main"; UStr ""; UBool false; UBool false; UStr ""] (mkOS [] declared [] ("", 0))); [apply parse_text|reflexivity|]. intros src E. apply K; assumption.
Qed.
End Top.

(** ** Effects *)
(** The system calls of a history, with these results, one after the other. *)
Inductive effs (strict : bool) : fsys -> list (act * res) -> fsys -> Prop :=
| es_nil fs : effs strict fs [] fs
| es_cons fs a r fs1 h fs2 : eff strict fs a r fs1 -> effs strict fs1 h fs2 -> effs strict fs ((a, r) :: h) fs2.
Lemma follow_reach o strict c : forall h0 h st, follow o c h0 = (h, st) -> exists hs, h = h0 ++ hs /\
  forall h1 h2 fs fs', hs = h1 ++ h2 -> effs strict fs h1 fs' -> exists c', reach strict (c, fs) (c', fs') /\ (h2 = [] -> c' = Done st).
Proof.
  induction c as [st0|a k IH]; intros h0 h st; cbn [follow].
  - intros [= -> ->]. exists []. split; [rewrite app_nil_r; reflexivity|]. intros h1 h2 fs fs' E X. symmetry in E. apply app_eq_nil in E. destruct E as [-> ->]. inversion X; subst. exists (Done st). split; [constructor|reflexivity].
  - intros E. destruct (IH _ _ _ _ E) as (hs & -> & R). exists ((a, o (List.length h0)) :: hs). split; [rewrite <- app_assoc; reflexivity|].
    intros h1 h2 fs fs' S X. destruct h1 as [|x h1].
    + inversion X; subst. exists (Do a k). split; [constructor|]. cbn in S. intros ->. discriminate.
    + cbn in S. injection S as <- S. inversion X; subst. edestruct (R h1 h2) as (c' & R' & D); [reflexivity|eassumption|]. exists c'. split; [econstructor; eassumption|exact D].
Qed.
(** Every run of the text, up to any point, is a run of the model. *)
Theorem text_runs num ynum pos lit o opt_s opt_b gofmt T eager : distinct num ynum -> lr_ok XG "spec" T = true -> exists k, forall N n, k <= N -> exists h st partial,
  ended (program num ynum pos lit o opt_s opt_b gofmt T eager N (S (S (S n)))) = Some (h, st) /\
  forall strict h1 h2 fs fs', h = h1 ++ h2 -> effs strict fs h1 fs' ->
  exists c, gen_run strict (inputF opt_s) (outputF opt_s) (typesF opt_s) (the_flags opt_s opt_b) gofmt partial fs c fs' /\ (h2 = [] -> c = Done st).
Proof.
  intros Dn OK. destruct (program_text num ynum pos lit o opt_s opt_b gofmt T eager Dn OK) as [k K]. exists k. intros N n L. destruct (K N n L) as (pieces & partial & C & E).
  destruct (follow o (main _ _ _ _ gofmt partial pieces) []) as [h st] eqn:F. exists h, st, partial. split; [exact E|]. intros strict h1 h2 fs fs' S X.
  destruct (follow_reach o strict _ _ _ _ F) as (hs & -> & R). cbn [app] in S. destruct (R h1 h2 fs fs' S X) as (c & R' & D). exists c. split; [exists pieces; split; assumption|exact D].
Qed.

(** ** What this says about files *)
(** Wherever a run of the text stops, with any errors: C55_order. *)
Theorem text_order num ynum pos lit o opt_s opt_b gofmt T eager : distinct num ynum -> lr_ok XG "spec" T = true -> let i := inputF opt_s in let out := outputF opt_s in let t := typesF opt_s in let fl := the_flags opt_s opt_b in
  exists k, forall N n, k <= N -> exists h st, ended (program num ynum pos lit o opt_s opt_b gofmt T eager N (S (S (S n)))) = Some (h, st) /\
  forall strict h1 h2 fs0 fs, h = h1 ++ h2 -> effs strict fs0 h1 fs ->
  (forall p, ~ In p (FileSysP.tmps out t) -> fs p = fs0 p) \/
  ((exists src ot ty, fs0 i = Some src /\ generate fl src = Some (ot, ty)) /\ (exists txt f, gofmt txt = Some f) /\
   ((forall p, ~ In p (out :: FileSysP.tmps out t) -> fs p = fs0 p) \/ ((forall p, ~ In p (t :: out :: FileSysP.tmps out t) -> fs p = fs0 p) /\ t <> ""))).
Proof.
  intros Dn OK i out t fl. destruct (text_runs num ynum pos lit o opt_s opt_b gofmt T eager Dn OK) as [k K]. exists k. intros N n L. destruct (K N n L) as (h & st & partial & E & R). exists h, st. split; [exact E|].
  intros strict h1 h2 fs0 fs S X. destruct (R strict h1 h2 fs0 fs S X) as (c & G & _). eapply order, G.
Qed.
(** Without errors: both files are made (C55_success). *)
Theorem text_success num ynum pos lit o opt_s opt_b gofmt T eager fs0 src ot ty f g : distinct num ynum -> lr_ok XG "spec" T = true -> let i := inputF opt_s in let out := outputF opt_s in let t := typesF opt_s in
  i <> "" -> out <> "" -> t <> "" -> fs0 i = Some src -> generate (the_flags opt_s opt_b) src = Some (ot, Some ty) ->
  fs0 (outTmp out) = None -> fs0 (toutTmp t) = None -> t <> out -> t <> outTmp out -> toutTmp t <> out -> gofmt ot = Some f -> gofmt ty = Some g ->
  exists k, forall N n, k <= N -> exists h st, ended (program num ynum pos lit o opt_s opt_b gofmt T eager N (S (S (S n)))) = Some (h, st) /\
  forall fs, effs true fs0 h fs -> st = Success /\ fs out = Some f /\ fs t = Some g /\ forall p, p <> out -> p <> t -> fs p = fs0 p.
Proof.
  intros Dn OK i out t Hi Ho Ht E G N1 N2 D1 D2 D3 F1 F2. destruct (text_runs num ynum pos lit o opt_s opt_b gofmt T eager Dn OK) as [k K]. exists k. intros N n L. destruct (K N n L) as (h & st & partial & En & R). exists h, st. split; [exact En|].
  intros fs X. destruct (R true h [] fs0 fs (eq_sym (app_nil_r h)) X) as (c & Gr & D). rewrite (D eq_refl) in Gr. eapply (success _ _ _ _ _ _ _ _ _ _ _ _ _ _ Hi Ho Ht); try eassumption.
  unfold the_flags. cbn [fl_types]. unfold with_types. apply String.eqb_neq in Ht. fold t. rewrite Ht. reflexivity.
Qed.

(** ** Example *)
Definition ex_src : string := "const A = 1; typedef int t;".
Definition ex_fs : fsys := fun p => if String.eqb p "a.x" then Some ex_src else None.
Definition ex_opt (x : string) : option string := if String.eqb x "i" then Some "a.x" else if String.eqb x "o" then Some "a.go" else if String.eqb x "t" then Some "t.go" else None.
Definition ex_go : string := "package main" +++ NL +++ import_line +++ "func (v *T) Xdr(xs *xdr.XdrState) {" +++ NL +++ "xdr.XdrS32(xs, (*int32)(v));" +++ NL +++ "}" +++ NL.
Definition ex_ty : string := "package main" +++ NL +++ "const A  = 1" +++ NL +++ "type T int32" +++ NL.
Definition ex_results (n : nat) : res := ROk match n with 0 => ex_src | 11 => ex_go | 14 => ex_ty | _ => "" end.
Definition ex_hist : list (act * res) :=
  match ended (program ex_num ex_ynum (fun _ => 0%Z) ex_lit ex_results ex_opt (fun _ => None) Some xdr_tab (fun _ => false) 70 3) with Some (h, _) => h | None => [] end.
Lemma ex_program : ended (program ex_num ex_ynum (fun _ => 0%Z) ex_lit ex_results ex_opt (fun _ => None) Some xdr_tab (fun _ => false) 70 3) = Some (ex_hist, Success) /\ List.length ex_hist = 19.
Proof. vm_compute. split; reflexivity. Qed.
Ltac eff1 := eapply es_cons; [first [eapply e_read; reflexivity|eapply e_create; reflexivity|eapply e_append; reflexivity|eapply e_trunc|eapply e_remove]|].
Lemma ex_effs : exists fs, effs true ex_fs ex_hist fs /\ fs "a.go" = Some ex_go /\ fs "t.go" = Some ex_ty /\ fs "a.go.tmp" = None /\ fs "t.go.tmp" = None.
Proof.
  assert (ex_hist = ltac:(let h := eval vm_compute in ex_hist in exact h)) as -> by (vm_compute; reflexivity). eexists. split; [repeat eff1; apply es_nil|]. vm_compute. repeat split.
Qed.
Lemma ex_distinct_ok : distinct ex_num ex_ynum /\ lr_ok XG "spec" xdr_tab = true.
Proof. pose proof ex_scans as X. destruct X. split; [refine (conj _ (conj _ _)); assumption|exact xdr_tab_ok]. Qed.
(** The state in which main calls xdrParse: the flags, the scanner, the buffers. *)
Definition ex_fl : flags := fl0 "main" "t.go" "" false.
Lemma ex_base (w : osw) : base 1 ex_fl 5 6 6 5 7 4 false (globals (UObj 5) (UObj 6)) (cells1 "a.x" "a.go" "main" "t.go" "" false false) [] w.
Proof.
  split; try reflexivity; [|split; reflexivity]. intros a I. cbn [In] in I. repeat (destruct I as [<-|I]; [reflexivity|]). destruct I.
Qed.
(** The parser alone, on a text; the files are written through the descriptors 5 and 6. *)
Definition ex_parse (eager : nat -> bool) (src : string) : mres osw (list uv) :=
  xdr_parse (os_consts ex_num ex_ynum) (os_ext ex_num (fun _ => 0%Z) ex_lit (fun _ => ROk "") ex_opt (fun _ => None) Some) xdr_y_prog xdr_tab eager 70 8 [UPtr 7]
    (mkMM (globals (UObj 5) (UObj 6)) (cells1 "a.x" "a.go" "main" "t.go" "" false false) [] (mkOS [] [] ["a.go.tmp"; "t.go.tmp"] (src, 0))).
