(** /repo/Makefile and the options it gives to the generator.
    Simplifications: rules, recipes and assignments in the forms the file has (no comments, continued
    lines or conditionals); of several pattern rules the first that matches is taken (there is one);
    in recipes only the automatic variables are expanded ($@ is the target make was asked for, also when
    the rule has several: manual, 10.5.3); the shell cuts a command at blanks; which
    files are out of date is not modelled, nor are the commands go generate, go build and go vet. *)
From Coq Require Import Ascii String List Bool Arith Lia ZArith.
From Verif Require Import GoLex XLex Gram GParse Emit FileSys FileSysP FileSysEx RepoText MakeText GSync MainAst MainProg MainSem YaccSem YaccLR YaccTab YaccRun MainRun.
Import ListNotations.
Open Scope string_scope.
Open Scope list_scope.

(** ** The file (GNU make manual, 3.1, 4.2, 10.5) *)
Fixpoint lines (s : string) : list string :=
  match s with
  | EmptyString => []
  | String c r => if Ascii.eqb c nl then "" :: lines r else match lines r with l :: ls => String c l :: ls | [] => [String c ""] end
  end.
Definition blank (c : ascii) : bool := Ascii.eqb c " " || Ascii.eqb c "009".
Definition push (w : string) (ws : list string) : list string := match w with EmptyString => ws | _ => w :: ws end.
(** Words are separated by blanks, except between parentheses. *)
Fixpoint wd (d : nat) (s : string) : string * list string :=
  match s with
  | EmptyString => ("", [])
  | String c r =>
      if blank c && Nat.eqb d 0 then let '(w, ws) := wd d r in ("", push w ws)
      else let '(w, ws) := wd (if Ascii.eqb c "(" then S d else if Ascii.eqb c ")" then pred d else d) r in (String c w, ws)
  end.
Definition words (s : string) : list string := let '(w, ws) := wd 0 s in push w ws.
Fixpoint cut (c : ascii) (s : string) : option (string * string) :=
  match s with
  | EmptyString => None
  | String a r => if Ascii.eqb a c then Some ("", r) else match cut c r with Some (x, y) => Some (String a x, y) | None => None end
  end.
Record rule : Type := mkRule { r_targets : list string; r_needs : list string; r_recipe : list string }.
(** The recipe lines met before the next rule, and the rules. *)
Fixpoint scan (ls : list string) : list string * list rule :=
  match ls with
  | [] => ([], [])
  | l :: ls =>
      let '(rec, rs) := scan ls in
      match l with
      | EmptyString => (rec, rs)
      | String c r =>
          if Ascii.eqb c "009" then (r :: rec, rs)
          else match cut ":" l with
               | Some (_, String "=" _) | None => ([], rs)
               | Some (a, b) => ([], mkRule (words a) (words b) rec :: rs)
               end
      end
  end.
Definition rules (s : string) : list rule := snd (scan (lines s)).

(** ** Rules for a target (10.5.1, 10.5.3, 10.5.4) *)
Fixpoint strip (p s : string) : option string :=
  match p, s with
  | EmptyString, _ => Some s
  | String a p, String b s => if Ascii.eqb a b then strip p s else None
  | String _ _, EmptyString => None
  end.
Fixpoint strip_end (e s : string) : option string :=
  if String.eqb s e then Some ""
  else match s with EmptyString => None | String c s => match strip_end e s with Some r => Some (String c r) | None => None end end.
(** What % stands for, one character at least. *)
Definition stem (p t : string) : option string :=
  match cut "%" p with
  | None => None
  | Some (a, b) => match strip a t with
                   | Some r => match strip_end b r with Some (String c s) => Some (String c s) | _ => None end
                   | None => None
                   end
  end.
Definition put_stem (st p : string) : string := match cut "%" p with Some (a, b) => a +++ st +++ b | None => p end.
Fixpoint first_some {A B} (f : A -> option B) (l : list A) : option B :=
  match l with [] => None | a :: l => match f a with Some b => Some b | None => first_some f l end end.
Definition applies (t : string) (r : rule) : option (list string * list string) :=
  if existsb (String.eqb t) (r_targets r) then Some (r_needs r, r_recipe r)
  else match first_some (fun p => stem p t) (r_targets r) with
       | Some st => Some (map (put_stem st) (r_needs r), r_recipe r)
       | None => None
       end.
Definition rule_for (mk t : string) : option (list string * list string) := first_some (applies t) (rules mk).
Fixpoint dir_of (t : string) : option string :=
  match t with
  | EmptyString => None
  | String c r => match dir_of r with Some d => Some (String c d) | None => if Ascii.eqb c "/" then Some "" else None end
  end.
(** $<, $@ and $(@D); [None] for any other variable. *)
Fixpoint expand (first t s : string) : option string :=
  match s with
  | EmptyString => Some ""
  | String "$" (String "<" r) => match expand first t r with Some x => Some (first +++ x) | None => None end
  | String "$" (String "@" r) => match expand first t r with Some x => Some (t +++ x) | None => None end
  | String "$" (String "(" (String "@" (String "D" (String ")" r)))) =>
      match expand first t r with Some x => Some (match dir_of t with Some d => d | None => "." end +++ x) | None => None end
  | String "$" _ => None
  | String c r => match expand first t r with Some x => Some (String c x) | None => None end
  end.
(** The first command of the recipe for [t], as words. *)
Definition command (mk t : string) : option (list string) :=
  match rule_for mk t with
  | Some (n :: _, c :: _) => match expand n t c with Some s => Some (words s) | None => None end
  | _ => None
  end.

(** ** The options of the generator (package flag, FlagSet.parseOne) *)
(** main.go:13-19, from the tree of the file: names, and whether they are Boolean. *)
Definition flag_of (d : md) : list (string * bool) :=
  match d with
  | MInit _ (XCall (XSel (XId "flag") k) (XStr s :: _)) => match cut """" s with Some ("", r) => match cut """" r with Some (n, "") => [(n, String.eqb k "Bool")] | _ => [] end | _ => [] end
  | _ => []
  end.
Definition declared_flags : list (string * bool) := flat_map flag_of (mf_decls main_prog).
Definition kind_of (x : string) : option bool := first_some (fun f => if String.eqb (fst f) x then Some (snd f) else None) declared_flags.
Inductive opt : Type := OStr (s : string) | OBool (b : bool).
(** The options set, later ones first; [None]: the program exits with a message. *)
Fixpoint parse_args (acc : list (string * opt)) (l : list string) : option (list (string * opt)) :=
  match l with
  | [] => Some acc
  | a :: l =>
      match a with
      | String "-" (String c n) =>
          let x := if Ascii.eqb c "-" then n else String c n in
          if String.eqb x "" then Some acc
          else match cut "=" x with
               | Some (y, v) => match kind_of y with
                                | Some false => parse_args ((y, OStr v) :: acc) l
                                | Some true => if existsb (String.eqb v) ["true"; "1"; "t"; "T"; "TRUE"; "True"] then parse_args ((y, OBool true) :: acc) l
                                               else if existsb (String.eqb v) ["false"; "0"; "f"; "F"; "FALSE"; "False"] then parse_args ((y, OBool false) :: acc) l else None
                                | None => None
                                end
               | None => match kind_of x with
                         | Some true => parse_args ((x, OBool true) :: acc) l
                         | Some false => match l with v :: l => parse_args ((x, OStr v) :: acc) l | [] => None end
                         | None => None
                         end
               end
      | _ => Some acc
      end
  end.
Definition get (os : list (string * opt)) (x : string) : option opt := first_some (fun f => if String.eqb (fst f) x then Some (snd f) else None) os.
Definition opt_s (os : list (string * opt)) (x : string) : option string := match get os x with Some (OStr s) => Some s | _ => None end.
Definition opt_b (os : list (string * opt)) (x : string) : option bool := match get os x with Some (OBool b) => Some b | _ => None end.
(** The options with which make runs the generator to make [t]. *)
Definition asks (mk t : string) (os : list (string * opt)) : Prop := exists args, command mk t = Some ("./go-rpcgen" :: args) /\ parse_args [] args = Some os.
Fixpoint all_chars (f : ascii -> bool) (s : string) : bool := match s with EmptyString => true | String c r => f c && all_chars f r end.
(** Names of directories: letters, digits and underscores, one at least. *)
Definition plain (d : string) : bool := negb (String.eqb d "") && all_chars is_idchar d.

(** ** Proofs *)
Lemma apps_assoc (a b c : string) : (a +++ b) +++ c = a +++ (b +++ c).
Proof. induction a as [|x a IH]; [reflexivity|]. cbn. rewrite IH. reflexivity. Qed.
Lemma apps_length (a b : string) : String.length (a +++ b) = String.length a + String.length b.
Proof. induction a as [|x a IH]; [reflexivity|]. cbn. rewrite IH. reflexivity. Qed.
Lemma idchar_plain c : is_idchar c = true -> blank c = false /\ Ascii.eqb c "(" = false /\ Ascii.eqb c ")" = false /\ Ascii.eqb c "/" = false.
Proof. destruct c as [[|] [|] [|] [|] [|] [|] [|] [|]]; intros H; vm_compute in H; try discriminate H; repeat split; reflexivity. Qed.
Lemma wd_plain d r : all_chars is_idchar d = true -> wd 0 (d +++ r) = (d +++ fst (wd 0 r), snd (wd 0 r)).
Proof.
  induction d as [|c d IH]; intros H; [cbn; destruct (wd 0 r); reflexivity|]. cbn [all_chars] in H. apply andb_true_iff in H. destruct H as [C H]. destruct (idchar_plain c C) as (B & L & R & _).
  cbn [String.append wd]. rewrite B, L, R. cbn [andb]. rewrite (IH H). reflexivity.
Qed.
Lemma strip_end_app e d : strip_end e (d +++ e) = Some d.
Proof.
  induction d as [|c d IH].
  - cbn [String.append]. destruct e as [|c e]; cbn [strip_end]; rewrite ?String.eqb_refl; reflexivity.
  - cbn [String.append strip_end]. destruct (String.eqb (String c (d +++ e)) e) eqn:Q; [|rewrite IH; reflexivity].
    apply String.eqb_eq in Q. apply (f_equal String.length) in Q. cbn in Q. rewrite apps_length in Q. lia.
Qed.
Lemma dir_app d e : dir_of e = Some "" -> dir_of (d +++ e) = Some d.
Proof. intros H. induction d as [|c d IH]; [exact H|]. cbn [String.append dir_of]. rewrite IH. reflexivity. Qed.
Definition opts (d o : string) : list (string * opt) :=
  [("const-type", OStr "uint32"); ("unsigned-enum", OBool true); ("p", OStr d); ("t", OStr (d +++ "/types.go")); ("o", OStr o); ("i", OStr (d +++ "/prot.x"))].
Definition the_rule : rule := mkRule ["%/xdr.go"; "%/types.go"] ["%/prot.x"; "./go-rpcgen"]
  ["./go-rpcgen -i $< -o $@ -t $(@D)/types.go -p $(@D) -unsigned-enum -const-type uint32"; "go vet ./$(@D)"].
Lemma rules_are : exists b c, rules makefile = [mkRule ["all"] ["rfc1813/xdr.go"; "rfc1057/xdr.go"] []; mkRule ["go-rpcgen"] ["$(wildcard *.go)"; "$(wildcard *.y)"; "$(wildcard *.x)"] b; the_rule; mkRule ["clean"] [] c].
Proof. eexists. eexists. vm_compute. reflexivity. Qed.
Lemma other_name d e x : plain d = true -> dir_of e = Some "" -> match dir_of x with Some y => all_chars is_idchar y = false | None => True end -> String.eqb (d +++ e) x = false.
Proof.
  intros P H X. destruct (String.eqb (d +++ e) x) eqn:Q; [|reflexivity]. apply String.eqb_eq in Q. subst x. rewrite (dir_app d e H) in X. unfold plain in P. rewrite X, andb_false_r in P. discriminate P.
Qed.
Lemma rule_for_app d e : plain d = true -> e = "/xdr.go" \/ e = "/types.go" -> rule_for makefile (d +++ e) = Some ([d +++ "/prot.x"; "./go-rpcgen"], r_recipe the_rule).
Proof.
  intros P E. assert (H : dir_of e = Some "") by (destruct E as [-> | ->]; reflexivity). destruct rules_are as (b & c & R). unfold rule_for. rewrite R. clear R.
  cbn [first_some applies r_targets r_needs r_recipe the_rule existsb].
  unfold applies. cbn [r_targets r_needs r_recipe the_rule existsb first_some].
  rewrite !(other_name d e) by (try exact P; try exact H; vm_compute; exact I || reflexivity). cbn [orb].
  change (stem "all" (d +++ e)) with (@None string). change (stem "go-rpcgen" (d +++ e)) with (@None string). cbn [first_some].
  assert (S : first_some (fun p => stem p (d +++ e)) ["%/xdr.go"; "%/types.go"] = Some d).
  { unfold plain in P. apply andb_true_iff in P. destruct P as [P _]. destruct d as [|x d]; [discriminate P|]. cbn [first_some]. unfold stem. cbn [cut]. change (Ascii.eqb "%" "%") with true. cbn [strip].
    destruct E as [-> | ->]; [rewrite strip_end_app; reflexivity|].
    rewrite (strip_end_app "/types.go"). destruct (strip_end "/xdr.go" (String x d +++ "/types.go")) as [[|y r]|] eqn:Q; try reflexivity. exfalso.
    assert (L : forall f s r', strip_end f s = Some r' -> s = r' +++ f).
    { clear. intros f s. induction s as [|z s IH]; intros r' Q; cbn [strip_end] in Q.
      - destruct (String.eqb "" f) eqn:W; [|discriminate]. apply String.eqb_eq in W. injection Q as <-. exact W.
      - destruct (String.eqb (String z s) f) eqn:W; [apply String.eqb_eq in W; injection Q as <-; exact W|]. destruct (strip_end f s) as [q|]; [|discriminate]. injection Q as <-. cbn. rewrite <- (IH q eq_refl). reflexivity. }
    apply L in Q. assert (D : dir_of (String x d +++ "/types.go") = Some (String x d)) by (apply dir_app; reflexivity). rewrite Q in D. rewrite dir_app in D by reflexivity. injection D as -> ->.
    apply (f_equal String.length) in Q. rewrite !apps_length in Q. cbn in Q. lia. }
  cbn [first_some] in S. rewrite S. reflexivity.
Qed.
Lemma expand_command first t d : dir_of t = Some d -> expand first t (hd "" (r_recipe the_rule)) =
  Some ("./go-rpcgen -i " +++ first +++ " -o " +++ t +++ " -t " +++ d +++ "/types.go -p " +++ d +++ " -unsigned-enum -const-type uint32").
Proof. intros H. cbn [hd the_rule r_recipe expand]. rewrite H. reflexivity. Qed.
Definition word (w : string) : bool := negb (String.eqb w "") && all_chars (fun c => negb (blank c || Ascii.eqb c "(" || Ascii.eqb c ")")) w.
Fixpoint join (ws : list string) : string := match ws with [] => "" | [w] => w | w :: ws => w +++ String " " (join ws) end.
Lemma wd_word w r : word w = true -> wd 0 (w +++ r) = (w +++ fst (wd 0 r), snd (wd 0 r)).
Proof.
  unfold word. intros H. apply andb_true_iff in H. destruct H as [_ H]. induction w as [|c w IH]; [cbn; destruct (wd 0 r); reflexivity|]. cbn [all_chars] in H. apply andb_true_iff in H. destruct H as [C H].
  apply negb_true_iff in C. apply orb_false_iff in C. destruct C as [C R]. apply orb_false_iff in C. destruct C as [B L]. cbn [String.append wd]. rewrite B, L, R. cbn [andb]. rewrite (IH H). reflexivity.
Qed.
Lemma push_word w ws : word w = true -> push w ws = w :: ws.
Proof. destruct w; [discriminate|reflexivity]. Qed.
Lemma apps_nil (a : string) : a +++ "" = a.
Proof. induction a as [|x a IH]; [reflexivity|]. cbn. rewrite IH. reflexivity. Qed.
Lemma words_join ws : forallb word ws = true -> words (join ws) = ws.
Proof.
  induction ws as [|w ws IH]; intros H; [reflexivity|]. cbn [forallb] in H. apply andb_true_iff in H. destruct H as [W H]. unfold words. destruct ws as [|v ws].
  - cbn [join]. pose proof (wd_word w "" W) as Q. rewrite apps_nil in Q. rewrite Q. cbn [wd fst snd]. rewrite apps_nil. apply push_word, W.
  - change (join (w :: v :: ws)) with (w +++ String " " (join (v :: ws))). rewrite (wd_word w _ W). specialize (IH H). unfold words in IH. cbn [wd]. change (blank " " && Nat.eqb 0 0) with true. cbv iota.
    destruct (wd 0 (join (v :: ws))) as [x xs]. cbn [fst snd]. rewrite apps_nil, IH. apply push_word, W.
Qed.
Lemma word_app a b : all_chars is_idchar a = true -> word b = true -> word (a +++ b) = true.
Proof.
  intros A B. unfold word in *. apply andb_true_iff in B. destruct B as [N B]. apply andb_true_iff. split; [destruct a; [exact N|reflexivity]|]. clear N. induction a as [|c a IH]; [exact B|].
  cbn [all_chars] in A. apply andb_true_iff in A. destruct A as [C A]. destruct (idchar_plain c C) as (X & Y & Z & _). cbn [String.append all_chars]. rewrite X, Y, Z, (IH A). reflexivity.
Qed.
Lemma word_plain d : plain d = true -> word d = true.
Proof.
  unfold plain, word. intros H. apply andb_true_iff in H. destruct H as [N H]. rewrite N. cbn [andb]. clear N. induction d as [|c d IH]; [reflexivity|].
  cbn [all_chars] in H. apply andb_true_iff in H. destruct H as [C H]. destruct (idchar_plain c C) as (X & Y & Z & _). cbn [all_chars]. rewrite X, Y, Z, (IH H). reflexivity.
Qed.
Definition command_of (d e : string) : list string := ["./go-rpcgen"; "-i"; d +++ "/prot.x"; "-o"; d +++ e; "-t"; d +++ "/types.go"; "-p"; d; "-unsigned-enum"; "-const-type"; "uint32"].
Lemma command_app d e : plain d = true -> e = "/xdr.go" \/ e = "/types.go" -> command makefile (d +++ e) = Some (command_of d e).
Proof.
  intros P E. assert (H : dir_of e = Some "") by (destruct E as [-> | ->]; reflexivity). unfold command. rewrite (rule_for_app d e P E). cbn [the_rule r_recipe].
  pose proof (expand_command (d +++ "/prot.x") (d +++ e) d (dir_app d e H)) as X. cbn [hd the_rule r_recipe] in X. rewrite X. clear X. f_equal.
  rewrite <- (words_join (command_of d e)).
  - f_equal. unfold command_of. cbn [join]. rewrite !apps_assoc. reflexivity.
  - pose proof (word_plain d P) as W. unfold plain in P. apply andb_true_iff in P. destruct P as [_ P]. unfold command_of. cbn [forallb]. rewrite W, !word_app by (try exact P; destruct E as [-> | ->]; reflexivity). reflexivity.
Qed.
Lemma declared_are : declared_flags = [("i", false); ("o", false); ("p", false); ("t", false); ("d", true); ("unsigned-enum", true); ("const-type", false)].
Proof. vm_compute. reflexivity. Qed.
Lemma asks_app d e : plain d = true -> e = "/xdr.go" \/ e = "/types.go" -> asks makefile (d +++ e) (opts d (d +++ e)).
Proof. intros P E. exists (tl (command_of d e)). split; [exact (command_app d e P E)|]. vm_compute. reflexivity. Qed.
Lemma asks_det t a b : asks makefile t a -> asks makefile t b -> a = b.
Proof. intros (x & X & A) (y & Y & B). congruence. Qed.
Lemma make_xdr d os : plain d = true -> asks makefile (d +++ "/xdr.go") os <-> os = opts d (d +++ "/xdr.go").
Proof. intros P. pose proof (asks_app d "/xdr.go" P (or_introl eq_refl)) as A. split; [intros B; exact (asks_det _ _ _ B A)|intros ->; exact A]. Qed.

(** ** What follows *)
Lemma asked d e os : plain d = true -> e = "/xdr.go" \/ e = "/types.go" -> asks makefile (d +++ e) os ->
  inputF (opt_s os) = d +++ "/prot.x" /\ outputF (opt_s os) = d +++ e /\ typesF (opt_s os) = d +++ "/types.go" /\ the_flags (opt_s os) (opt_b os) = make_flags d.
Proof.
  intros P E A. rewrite (asks_det _ _ _ A (asks_app d e P E)). repeat split; try reflexivity. unfold the_flags, make_flags. cbn. f_equal.
  unfold with_types. destruct d; reflexivity.
Qed.
Lemma asked_some d e : plain d = true -> e = "/xdr.go" \/ e = "/types.go" -> exists os, asks makefile (d +++ e) os.
Proof. intros P E. eexists. exact (asks_app d e P E). Qed.
Lemma all_is : exists r, rule_for makefile "all" = Some (["rfc1813/xdr.go"; "rfc1057/xdr.go"], r).
Proof. eexists. vm_compute. reflexivity. Qed.
Lemma needs_is d e : plain d = true -> e = "/xdr.go" \/ e = "/types.go" -> exists r, rule_for makefile (d +++ e) = Some ([d +++ "/prot.x"; "./go-rpcgen"], r).
Proof. intros P E. eexists. exact (rule_for_app d e P E). Qed.

(** Output and types file the same: the second temporary file cannot be made. *)
Lemma appended strict fs p s r fs' : eff strict fs (AAppend p s) r fs' -> fs p <> None -> fs' p <> None /\ forall q, q <> p -> fs' q = fs q.
Proof.
  intros H N. inversion H; subst; try (split; [exact N|reflexivity]).
  - split; [unfold fset; rewrite String.eqb_refl; discriminate|]. intros q Q. unfold fset. apply String.eqb_neq in Q. rewrite Q. reflexivity.
  - split; [unfold fset; rewrite String.eqb_refl; discriminate|]. intros q Q. unfold fset. apply String.eqb_neq in Q. rewrite Q. reflexivity.
Qed.
Lemma fset_other fs p c q : q <> p -> fset fs p c q = fs q.
Proof. intros Q. unfold fset. apply String.eqb_neq in Q. rewrite Q. reflexivity. Qed.
Lemma same_run strict i o fl gofmt partial fs0 c fs : gen_run strict i o o fl gofmt partial fs0 c fs -> (forall p, p <> outTmp o -> fs p = fs0 p) /\ c <> Done Success.
Proof.
  intros (pieces & _ & R). unfold main in R. destruct (String.eqb i ""); [inversion R; subst; split; [reflexivity|discriminate]|]. destruct (String.eqb o "") eqn:Eo; [inversion R; subst; split; [reflexivity|discriminate]|].
  inversion R; subst; [split; [reflexivity|discriminate]|]. clear R.
  match goal with H : eff _ _ (ARead _) _ _ |- _ => inversion H; subst end; match goal with H : reach _ _ _ |- _ => rename H into R end; try (inversion R; subst; split; [reflexivity|discriminate]).
  inversion R; subst; [split; [reflexivity|discriminate]|]. clear R.
  match goal with H : eff _ _ (ACreate _) _ _ |- _ => inversion H; subst end; match goal with H : reach _ _ (c, fs) |- _ => rename H into R end; try (inversion R; subst; split; [reflexivity|discriminate]).
  assert (N : fset fs' (outTmp o) (Some "") (outTmp o) <> None) by (unfold fset; rewrite String.eqb_refl; discriminate).
  assert (Q : forall p, p <> outTmp o -> fset fs' (outTmp o) (Some "") p = fs' p) by (intros p; apply fset_other).
  revert N Q R. generalize (fset fs' (outTmp o) (Some "")). intros f1 N Q R.
  inversion R as [|? ? ? ? f2 ? E2 R2]; subst; [split; [exact Q|discriminate]|]. destruct (appended _ _ _ _ _ _ E2 N) as [N2 Q2].
  inversion R2 as [|? ? ? ? f3 ? E3 R3]; subst; [split; [intros p P; rewrite (Q2 p P); exact (Q p P)|discriminate]|]. destruct (appended _ _ _ _ _ _ E3 N2) as [N3 Q3].
  assert (Q' : forall p, p <> outTmp o -> f3 p = fs' p) by (intros p P; rewrite (Q3 p P), (Q2 p P); exact (Q p P)).
  unfold with_types in R3. rewrite Eo in R3. cbn [negb] in R3. inversion R3 as [|? ? ? ? f4 ? E4 R4]; subst; [split; [exact Q'|discriminate]|].
  change (toutTmp o) with (outTmp o) in E4. inversion E4; subst; try (exfalso; apply N3; assumption);
    (cbn [defers] in R4; inversion R4 as [|? ? ? ? f5 ? E5 R5]; subst; [split; [exact Q'|discriminate]|]; inversion R5; subst; (split; [|discriminate]);
     inversion E5; subst; intros p P; rewrite ?fset_other by exact P; exact (Q' p P)).
Qed.
Lemma types_fails num ynum pos lit o gofmt T eager d os : distinct num ynum -> lr_ok XG "spec" T = true -> plain d = true -> asks makefile (d +++ "/types.go") os ->
  exists k, forall N n, k <= N -> exists h st, ended (program num ynum pos lit o (opt_s os) (opt_b os) gofmt T eager N (S (S (S n)))) = Some (h, st) /\
  forall strict fs0 fs, effs strict fs0 h fs -> st <> Success /\ forall p, p <> d +++ "/types.go.tmp" -> fs p = fs0 p.
Proof.
  intros Dn OK P A. destruct (asked d _ os P (or_intror eq_refl) A) as (_ & Eo & Et & _). destruct (text_runs num ynum pos lit o (opt_s os) (opt_b os) gofmt T eager Dn OK) as [k K]. exists k. intros N n L. destruct (K N n L) as (h & st & partial & E & R).
  exists h, st. split; [exact E|]. intros strict fs0 fs X. destruct (R strict h [] fs0 fs (eq_sym (app_nil_r h)) X) as (c & G & D). rewrite Eo, Et in G. rewrite (D eq_refl) in G. destruct (same_run _ _ _ _ _ _ _ _ _ G) as [Q S].
  split; [intros ->; apply S; reflexivity|]. intros p Hp. apply Q. unfold outTmp. rewrite apps_assoc. exact Hp.
Qed.
Definition committed : list (string * string * string * string) := [("rfc1813", rfc1813_prot_x, rfc1813_xdr_go, rfc1813_types_go); ("rfc1057", rfc1057_prot_x, rfc1057_xdr_go, rfc1057_types_go)].
(** go/format changes no token, and accepts what has the tokens of the committed files. *)
Definition formats (gofmt : string -> option string) (a b : string) : Prop :=
  (forall x y, gofmt x = Some y -> same_go x y) /\ forall x, same_go x a \/ same_go x b -> gofmt x <> None.
(** One bound does for all file systems. *)
Lemma make_from num ynum pos lit o gofmt T eager d src a b os : distinct num ynum -> lr_ok XG "spec" T = true -> In (d, src, a, b) committed -> asks makefile (d +++ "/xdr.go") os -> formats gofmt a b ->
  exists k, forall N n, k <= N -> exists h st, ended (program num ynum pos lit o (opt_s os) (opt_b os) gofmt T eager N (S (S (S n)))) = Some (h, st) /\
  forall fs0 fs, fs0 (d +++ "/prot.x") = Some src -> fs0 (d +++ "/xdr.go.tmp") = None -> fs0 (d +++ "/types.go.tmp") = None -> effs true fs0 h fs ->
    st = Success /\ (exists f, fs (d +++ "/xdr.go") = Some f /\ same_go f a) /\ (exists g, fs (d +++ "/types.go") = Some g /\ same_go g b) /\ forall p, p <> d +++ "/xdr.go" -> p <> d +++ "/types.go" -> fs p = fs0 p.
Proof.
  intros Dn OK I A [F1 F2].
  assert (H : plain d = true /\ exists ot ty, generate (make_flags d) src = Some (ot, Some ty) /\ same_go ot a /\ same_go ty b).
  { destruct I as [[= <- <- <- <-]|[[= <- <- <- <-]|[]]]; (split; [reflexivity|]); [exact rfc1813_in_sync|exact rfc1057_in_sync]. }
  destruct H as (P & ot & ty & G & Sa & Sb). destruct (asked d _ os P (or_introl eq_refl) A) as (Ei & Eo & Et & Ef).
  destruct (gofmt ot) as [f|] eqn:Fo; [|exfalso; exact (F2 ot (or_introl Sa) Fo)]. destruct (gofmt ty) as [g|] eqn:Ft; [|exfalso; exact (F2 ty (or_intror Sb) Ft)].
  destruct (text_runs num ynum pos lit o (opt_s os) (opt_b os) gofmt T eager Dn OK) as [k K]. rewrite Ei, Eo, Et, Ef in K.
  assert (O1 : outTmp (d +++ "/xdr.go") = d +++ "/xdr.go.tmp") by (unfold outTmp; rewrite apps_assoc; reflexivity). assert (O2 : toutTmp (d +++ "/types.go") = d +++ "/types.go.tmp") by (unfold toutTmp; rewrite apps_assoc; reflexivity).
  assert (Ne : forall x y, d +++ x = d +++ y -> x = y). { clear. induction d as [|c d IH]; intros x y H; [exact H|]. injection H. apply IH. }
  exists k. intros N n L. destruct (K N n L) as (h & st & partial & E & R). exists h, st. split; [exact E|]. intros fs0 fs S0 T1 T2 X.
  destruct (R true h [] fs0 fs (eq_sym (app_nil_r h)) X) as (c & Gr & D). rewrite (D eq_refl) in Gr.
  destruct (success (d +++ "/prot.x") (d +++ "/xdr.go") (d +++ "/types.go") (make_flags d) gofmt partial fs0 src ot ty f g st fs) as (St & X1 & X2 & X3); rewrite ?O1, ?O2; try assumption; try reflexivity;
    try (intros W; destruct d; discriminate W); try (intros W; apply Ne in W; discriminate W).
  split; [exact St|].
  split; [exists f; split; [exact X1|]; unfold same_go in *; rewrite <- (F1 _ _ Fo); exact Sa|]. split; [exists g; split; [exact X2|]; unfold same_go in *; rewrite <- (F1 _ _ Ft); exact Sb|exact X3].
Qed.
(** The ways to write an option (documentation of package flag, "Command line flag syntax"). *)
Lemma kind_in x b : kind_of x = Some b -> In (x, b) [("i", false); ("o", false); ("p", false); ("t", false); ("d", true); ("unsigned-enum", true); ("const-type", false)].
Proof.
  unfold kind_of. rewrite declared_are. cbn [first_some fst snd]. intros H.
  repeat match type of H with context [if String.eqb ?a x then _ else _] => destruct (String.eqb a x) eqn:?; [match goal with Q : String.eqb a x = true |- _ => apply String.eqb_eq in Q; subst x end; injection H as <-; cbn; tauto|] end. discriminate H.
Qed.
Lemma flag_string acc l x v : kind_of x = Some false -> let r := parse_args ((x, OStr v) :: acc) l in
  parse_args acc (("-" +++ x) :: v :: l) = r /\ parse_args acc (("--" +++ x) :: v :: l) = r /\ parse_args acc (("-" +++ x +++ "=" +++ v) :: l) = r /\ parse_args acc (("--" +++ x +++ "=" +++ v) :: l) = r.
Proof. intros H. pose proof (kind_in _ _ H) as I. cbn [In] in I. repeat (destruct I as [Q|I]; [try discriminate Q; injection Q as <-; repeat split; reflexivity|]). destruct I. Qed.
Lemma flag_bool acc l x b : kind_of x = Some true -> (forall v, In v ["true"; "1"; "t"; "T"; "TRUE"; "True"] /\ b = true \/ In v ["false"; "0"; "f"; "F"; "FALSE"; "False"] /\ b = false ->
    parse_args acc (("-" +++ x +++ "=" +++ v) :: l) = parse_args ((x, OBool b) :: acc) l /\ parse_args acc (("--" +++ x +++ "=" +++ v) :: l) = parse_args ((x, OBool b) :: acc) l) /\
  parse_args acc (("-" +++ x) :: l) = parse_args ((x, OBool true) :: acc) l /\ parse_args acc (("--" +++ x) :: l) = parse_args ((x, OBool true) :: acc) l.
Proof.
  intros H. assert (x = "d" \/ x = "unsigned-enum") as X. { pose proof (kind_in _ _ H) as I. cbn [In] in I. repeat (destruct I as [Q|I]; [try discriminate Q; injection Q as <-; auto|]). destruct I. }
  split; [|destruct X as [-> | ->]; split; reflexivity]. intros v [[I ->]|[I ->]]; cbn [In] in I; repeat (destruct I as [<-|I]; [destruct X as [-> | ->]; split; reflexivity|]); destruct I.
Qed.
Lemma flag_stop acc l a : head_is (fun c => Ascii.eqb c "-") a = false \/ a = "-" \/ a = "--" -> parse_args acc (a :: l) = Some acc.
Proof. intros [H|[-> | ->]]; [|reflexivity|reflexivity]. destruct a as [|[[|] [|] [|] [|] [|] [|] [|] [|]] r]; try reflexivity; discriminate H. Qed.
(** The default target: both directories, one after the other. *)
Lemma make_all num ynum pos lit o1 o2 gofmt T eager os1 os2 t1 t2 r : distinct num ynum -> lr_ok XG "spec" T = true -> rule_for makefile "all" = Some ([t1; t2], r) -> asks makefile t1 os1 -> asks makefile t2 os2 ->
  (forall d src a b, In (d, src, a, b) committed -> formats gofmt a b) ->
  exists k, forall N n, k <= N -> exists h1 st1 h2 st2,
    ended (program num ynum pos lit o1 (opt_s os1) (opt_b os1) gofmt T eager N (S (S (S n)))) = Some (h1, st1) /\
    ended (program num ynum pos lit o2 (opt_s os2) (opt_b os2) gofmt T eager N (S (S (S n)))) = Some (h2, st2) /\
    forall fs0 fs1 fs2, (forall d src a b, In (d, src, a, b) committed -> fs0 (d +++ "/prot.x") = Some src /\ fs0 (d +++ "/xdr.go.tmp") = None /\ fs0 (d +++ "/types.go.tmp") = None) ->
      effs true fs0 h1 fs1 -> effs true fs1 h2 fs2 -> st1 = Success /\ st2 = Success /\
      (forall d src a b, In (d, src, a, b) committed -> (exists f, fs2 (d +++ "/xdr.go") = Some f /\ same_go f a) /\ exists g, fs2 (d +++ "/types.go") = Some g /\ same_go g b) /\
      forall p, (forall d src a b, In (d, src, a, b) committed -> p <> d +++ "/xdr.go" /\ p <> d +++ "/types.go") -> fs2 p = fs0 p.
Proof.
  intros Dn OK A A1 A2 F. destruct all_is as (r' & A'). rewrite A' in A. injection A as <- <- _. clear A' r'.
  assert (I1 : In ("rfc1813", rfc1813_prot_x, rfc1813_xdr_go, rfc1813_types_go) committed) by (left; reflexivity). assert (I2 : In ("rfc1057", rfc1057_prot_x, rfc1057_xdr_go, rfc1057_types_go) committed) by (right; left; reflexivity).
  destruct (make_from num ynum pos lit o1 gofmt T eager _ _ _ _ os1 Dn OK I1 A1 (F _ _ _ _ I1)) as [k1 K1]. destruct (make_from num ynum pos lit o2 gofmt T eager _ _ _ _ os2 Dn OK I2 A2 (F _ _ _ _ I2)) as [k2 K2].
  exists (k1 + k2). intros N n L. destruct (K1 N n ltac:(lia)) as (h1 & st1 & E1 & R1). destruct (K2 N n ltac:(lia)) as (h2 & st2 & E2 & R2). exists h1, st1, h2, st2. split; [exact E1|]. split; [exact E2|].
  intros fs0 fs1 fs2 S X1 X2. destruct (S _ _ _ _ I1) as (S1 & T1 & U1). destruct (S _ _ _ _ I2) as (S2 & T2 & U2). destruct (R1 fs0 fs1 S1 T1 U1 X1) as (St1 & M1 & M1' & C1).
  destruct (R2 fs1 fs2) as (St2 & M2 & M2' & C2); [rewrite C1 by discriminate; exact S2|rewrite C1 by discriminate; exact T2|rewrite C1 by discriminate; exact U2|exact X2|].
  split; [exact St1|]. split; [exact St2|]. split.
  - intros d src a b [[= <- <- <- <-]|[[= <- <- <- <-]|[]]]; [|split; assumption]. split; [rewrite C2 by discriminate; exact M1|rewrite C2 by discriminate; exact M1'].
  - intros p Q. destruct (Q _ _ _ _ I1). destruct (Q _ _ _ _ I2). rewrite C2 by assumption. apply C1; assumption.
Qed.
