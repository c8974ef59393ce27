(** xdrParse, which goyacc makes of /repo/xdr.y: the driver over tables, getting its tokens from the text of scan.go and running the actions. *)
From Coq Require Import Lia.
From Verif Require Import GoLex GLexP XLex Gram GParse GParseP Emit GoWf SrcAst MainAst MainProg MainSem MainOut MainEmit MainGen MainScan YaccAst YaccProg YaccSem YaccLR YaccLRP YaccParse.
Open Scope string_scope.
Open Scope list_scope.

(** ** The driver *)
Section Machine.
Context {W : Type}.
Variable consts : string -> option uv.
Variable ext : string -> list uv -> mm W -> mres W (list uv).
Variable f : yfile.
Variable T : lrtab.
(** In a state with one action for all tokens the driver need not read the next token; whether it does is up to the tables. *)
Variable eager : nat -> bool.
Notation run := (urun main_pkgs consts main_pkg ext).

(** The symbol with a code: 0 is the end; the constants of the declared tokens; characters. *)
Definition sym_of (z : Z) : string :=
  if Z.eqb z 0 then endsym else
  match find (fun a => match consts a with Some (UInt z') => Z.eqb z z' | _ => false end) (filter named (map snd (y_tokens f))) with
  | Some a => a
  | None => String "'" (String (ascii_of_N (Z.to_N z)) "'")
  end.
(** Of lval (cell [pv]) actions read the field that the symbol is declared with. *)
Definition tok_field (m : mm W) (pv : nat) (X : string) : uv :=
  match tag_of f X with Some t => match ufield m (UPtr pv) t with Some v => v | None => UNil end | None => UNil end.
Definition read (n pl pv : nat) (m : mm W) : mres W (string * uv) :=
  mbind (run n "lexer.Lex" [UPtr pl; UPtr pv] m) (fun vs m => match vs with [UInt z] => MOk m (sym_of z, tok_field m pv (sym_of z)) | _ => MStuck end).
Definition only (s : nat) : option nat :=
  match state T s with mkLR _ [] [] d _ => d | _ => None end.
Definition peek (n pl pv s : nat) (look : option (string * uv)) (m : mm W) : mres W (option (string * uv)) :=
  match look with
  | Some l => MOk m (Some l)
  | None =>
      if match only s with Some _ => negb (eager s) | None => false end then MOk m None
      else mbind (read n pl pv m) (fun l m => MOk m (Some l))
  end.
Definition decide (s : nat) (look : option (string * uv)) : lract :=
  match look with Some (X, _) => action T s X | None => match only s with Some k => LReduce k | None => LError end end.
(** [stk]: states and values.  lexer.Error is not expected to return. *)
Fixpoint drive (j n pl pv : nat) (stk : list (nat * uv)) (look : option (string * uv)) (m : mm W) : mres W unit :=
  match j with
  | O => MStuck
  | S j =>
      mbind (peek n pl pv (top stk) look m) (fun look m =>
      match decide (top stk) look with
      | LShift s => match look with Some (_, v) => drive j n pl pv ((s, v) :: stk) None m | None => MStuck end
      | LReduce k =>
          match nth_error (prods f) k with
          | Some p =>
              let c := List.length (p_rhs p) in
              if Nat.ltb (List.length stk) c then MStuck else
              mbind (act_run consts ext n (p_act p) (rev (map snd (firstn c stk))) m) (fun v m =>
              match goto T (top (skipn c stk)) (p_lhs p) with
              | Some s => drive j n pl pv ((s, v) :: skipn c stk) look m
              | None => MStuck
              end)
          | None => MOk m tt
          end
      | LError => mbind (run n "lexer.Error" [UPtr pl; UStr "syntax error"] m) (fun _ _ => MStuck)
      end)
  end.
(** The variable lval is made on entry, with zero values. *)
Definition xdr_parse (j n : nat) (args : list uv) (m : mm W) : mres W (list uv) :=
  match args with
  | [UPtr pl] =>
      let pv := List.length (mm_cells m) in
      let zero := UStruct "xdrSymType" (map (fun p : string * mx => (fst p, uzero consts main_pkg 5 (snd p))) (y_union f)) in
      mbind (drive j n pl pv [] None (with_ucells m (mm_cells m ++ [zero]))) (fun _ m => MOk m [UInt 0])
  | _ => MStuck
  end.
End Machine.

(** ** Definitions of a tree *)
Definition is_def (X : string) : bool := String.eqb X "spec" || existsb (String.eqb X) defns.
Definition does (k : nat) : bool := match nth_error XG k with Some (mkProd _ _ (Some (ADo _))) => true | _ => false end.
Fixpoint tdefs (t : pt) : list defn :=
  match t with
  | PTok _ => []
  | PNode k cs => flat_map tdefs cs ++ (if does k then match parse (flat_map yield cs) with Some ds => ds | None => [] end else [])
  end.
Definition shape (p : prod) : bool :=
  let pure := forallb (fun X => negb (is_def X)) (p_rhs p) in
  if String.eqb (p_lhs p) "spec" then
    match p_act p with None => true | _ => false end && match p_rhs p with [] => true | [X; Y] => String.eqb X "spec" && existsb (String.eqb Y) defns | _ => false end
  else if existsb (String.eqb (p_lhs p)) defns then
    match p_act p with Some (ADo _) => pure | None => match p_rhs p with [X] => existsb (String.eqb X) defns | _ => false end | _ => false end
  else pure && match p_act p with Some (ADo _) => false | _ => true end.
Lemma shapes k p : nth_error XG k = Some p -> shape p = true.
Proof. assert (forallb shape XG = true) as F by (vm_compute; reflexivity). rewrite forallb_forall in F. intros E. apply F. eapply nth_error_In, E. Qed.
Lemma defn_parse d ts : D_defn d ts -> parse ts = Some [d].
Proof. intros D. apply parse_iff. exact (D_spec_more [] [] d ts D_spec_nil D). Qed.
Lemma tok_nodef y : is_def (ysym y) = false.
Proof. destruct y; reflexivity. Qed.
Definition defs_of (X : string) (t : pt) : Prop :=
  if String.eqb X "spec" then D_spec (tdefs t) (yield t)
  else if existsb (String.eqb X) defns then exists d, tdefs t = [d] /\ D_defn d (yield t)
  else tdefs t = [].
Lemma pure_nil Xs ts : Forall2 defs_of Xs ts -> forallb (fun X => negb (is_def X)) Xs = true -> flat_map tdefs ts = [].
Proof.
  induction 1 as [|X t Xs ts H _ IH]; [reflexivity|]. cbn [forallb flat_map]. intros P. apply andb_true_iff in P. destruct P as [P Ps]. rewrite (IH Ps), app_nil_r.
  unfold is_def in P. unfold defs_of in H. destruct (String.eqb X "spec"); [discriminate|]. destruct (existsb (String.eqb X) defns); [discriminate|]. exact H.
Qed.
Lemma defn_not_spec X : existsb (String.eqb X) defns = true -> String.eqb X "spec" = false.
Proof. destruct (String.eqb_spec X "spec") as [->|]; [discriminate|reflexivity]. Qed.
Lemma tdefs_ok : (forall X t, ok_tree XG X t -> defs_of X t) /\ (forall Xs ts, ok_trees XG Xs ts -> Forall2 defs_of Xs ts).
Proof.
  apply ok_tree_mutind.
  - intros y. unfold defs_of. pose proof (tok_nodef y) as N. unfold is_def in N. apply orb_false_iff in N. destruct N as [-> ->]. reflexivity.
  - intros k p cs E O F. pose proof (shapes _ _ E) as S. unfold shape in S. unfold defs_of. cbn [tdefs yield]. unfold does. rewrite E.
    destruct p as [lhs rhs act]. cbn [p_lhs p_rhs p_act] in *. destruct (String.eqb lhs "spec") eqn:L1; [|destruct (existsb (String.eqb lhs) defns) eqn:L2].
    + destruct act as [a|]; [discriminate|]. cbn [andb] in S. rewrite app_nil_r. destruct rhs as [|X [|Y [|]]]; try discriminate.
      * inversion F; subst. constructor.
      * apply andb_true_iff in S. destruct S as [S1 S2]. inversion F as [|? t ? ts H1 F1]; subst. inversion F1 as [|? t' ? ts' H2 F2]; subst. inversion F2; subst. cbn [flat_map]. rewrite !app_nil_r.
        unfold defs_of in H1, H2. rewrite S1 in H1. rewrite (defn_not_spec _ S2), S2 in H2. destruct H2 as (d & -> & D). constructor; assumption.
    + destruct act as [[e|e]|]; [discriminate| |].
      * rewrite (pure_nil _ _ F S). cbn [app]. pose proof (proj1 (tree_means (W := unit) (fun _ => None) (fun _ _ _ => MStuck)) _ _ (ok_node XG k _ cs E O)) as Mn. cbn [p_lhs] in Mn. unfold mt, means in Mn. rewrite L1, L2 in Mn.
        destruct Mn as (d & D & _). cbn [yield] in D. rewrite (defn_parse _ _ D). eauto.
      * rewrite app_nil_r. destruct rhs as [|X [|]]; try discriminate. inversion F as [|? t ? ts H1 F1]; subst. inversion F1; subst. cbn [flat_map]. rewrite !app_nil_r. unfold defs_of in H1. rewrite (defn_not_spec _ S), S in H1. exact H1.
    + apply andb_true_iff in S. destruct S as [S A]. rewrite (pure_nil _ _ F S). destruct act as [[e|e]|]; [reflexivity|discriminate|reflexivity].
  - constructor.
  - constructor; assumption.
Qed.

(** ** Values *)
Section Values.
Context {W : Type}.
Variable consts : string -> option uv.
Variable ext : string -> list uv -> mm W -> mres W (list uv).
Notation rt := (run_tree consts ext XG).
Notation run := (urun main_pkgs consts main_pkg ext).
Definition valok (t : pt) (v : uv) : Prop := forall X, ok_tree XG X t -> is_def X = false -> forall n m, rt n t m = MOk m v.
Lemma vals_run Xs cs vs : ok_trees XG Xs cs -> forallb (fun X => negb (is_def X)) Xs = true -> Forall2 valok cs vs -> forall n m, run_trees consts ext XG n cs m = MOk m vs.
Proof.
  intros O. revert vs. induction O as [|X Xs t ts O _ IH]; intros vs P F n m; inversion F as [|? v ? vs' V F']; subst; [reflexivity|]. cbn [forallb] in P. apply andb_true_iff in P. destruct P as [P Ps]. apply negb_true_iff in P.
  cbn [run_trees]. rewrite (V _ O P). cbn [mbind]. rewrite (IH _ Ps F'). reflexivity.
Qed.
(** A reduction. *)
Lemma reduce_act k p cs vs : nth_error XG k = Some p -> ok_trees XG (p_rhs p) cs -> Forall2 valok cs vs ->
  (does k = false /\ exists v, valok (PNode k cs) v /\ forall n m, act_run consts ext n (p_act p) vs m = MOk m v) \/
  (does k = true /\ flat_map tdefs cs = [] /\ exists d, parse (flat_map yield cs) = Some [d] /\ D_defn d (flat_map yield cs) /\ (forall v, valok (PNode k cs) v) /\
     forall n m, void (act_run consts ext n (p_act p) vs m) = void (run n (fst (emit_call d)) (snd (emit_call d)) m)).
Proof.
  intros E O F. pose proof (shapes _ _ E) as S. unfold shape in S. unfold does. rewrite E. destruct p as [lhs rhs act]. cbn [p_lhs p_rhs p_act] in *.
  assert (forall X, ok_tree XG X (PNode k cs) -> X = lhs) as L. { intros X O'. inversion O' as [|? p' ? E' _]; subst. rewrite E in E'. injection E' as <-. reflexivity. }
  assert (forallb (fun X => negb (is_def X)) rhs = true -> forall n m, rt n (PNode k cs) m = act_run consts ext n act vs m) as R.
  { intros P n m. rewrite run_node, (vals_run _ _ _ O P F), E. reflexivity. }
  pose proof (proj1 (tree_means consts ext) _ _ (ok_node XG k _ cs E O)) as Mn. cbn [p_lhs] in Mn. unfold mt, means in Mn. cbn [yield] in Mn.
  assert (is_def lhs = String.eqb lhs "spec" || existsb (String.eqb lhs) defns) as I by reflexivity.
  destruct (String.eqb lhs "spec") eqn:L1; [|destruct (existsb (String.eqb lhs) defns) eqn:L2].
  - left. destruct act as [a|]; [discriminate|]. split; [reflexivity|]. exists (hd UNil vs). split; [|reflexivity]. intros X O' N. rewrite (L _ O'), I in N. discriminate.
  - destruct act as [[e|e]|]; [discriminate| |].
    + right. split; [reflexivity|]. split; [exact (pure_nil _ _ (proj2 tdefs_ok _ _ O) S)|]. destruct Mn as (d & D & V). exists d. split; [apply defn_parse, D|]. split; [exact D|]. split.
      * intros v X O' N. rewrite (L _ O'), I in N. discriminate.
      * intros n m. rewrite <- (R S). apply V.
    + left. split; [reflexivity|]. exists (hd UNil vs). split; [|reflexivity]. intros X O' N. rewrite (L _ O'), I in N. discriminate.
  - apply andb_true_iff in S. destruct S as [S A]. destruct Mn as (v & _ & V). left. split; [destruct act as [[e|e]|]; [reflexivity|discriminate|reflexivity]|].
    exists v. split; [intros X _ _; exact V|]. intros n m. rewrite <- (R S). apply V.
Qed.
End Values.
Lemma emit_list_app {A} (f : A -> option (list write)) a : forall b, emit_list f (a ++ b) = match emit_list f a with Some x => option_map (app x) (emit_list f b) | None => None end.
Proof.
  induction a as [|d a IH]; intros b; cbn [app emit_list]; [destruct (emit_list f b); reflexivity|]. destruct (f d) as [x|]; [|reflexivity]. rewrite IH. destruct (emit_list f a) as [y|]; cbn [pbind]; [|reflexivity].
  destruct (emit_list f b); cbn; [rewrite app_assoc|]; reflexivity.
Qed.
Definition sdefs (stk : list (nat * pt)) : list defn := flat_map tdefs (rev (map snd stk)).
Lemma sdefs_cons s t stk : sdefs ((s, t) :: stk) = sdefs stk ++ tdefs t.
Proof. unfold sdefs. cbn [map snd rev]. rewrite flat_map_app. cbn [flat_map]. rewrite app_nil_r. reflexivity. Qed.
Lemma sdefs_reduce s k c stk : sdefs ((s, PNode k (rev (map snd (firstn c stk)))) :: skipn c stk) =
  sdefs stk ++ (if does k then match parse (flat_map yield (rev (map snd (firstn c stk)))) with Some ds => ds | None => [] end else []).
Proof. rewrite sdefs_cons. cbn [tdefs]. rewrite app_assoc. f_equal. unfold sdefs. rewrite <- flat_map_app, <- rev_app_distr, <- map_app, firstn_skipn. reflexivity. Qed.
Lemma lrt_prefix T j : forall stk rest t, lrt XG T j stk rest = LAcc t -> exists ds, tdefs t = sdefs stk ++ ds.
Proof.
  induction j as [|j IH]; [discriminate|]. intros stk rest t. cbn [lrt]. destruct (action T (top stk) (la rest)) as [s|k|]; [| |discriminate].
  - destruct rest as [|y rest]; [discriminate|]. intros E. destruct (IH _ _ _ E) as [ds D]. exists ds. rewrite D, sdefs_cons. cbn [tdefs]. rewrite app_nil_r. reflexivity.
  - destruct (nth_error XG k) as [p|].
    + destruct (Nat.ltb _ _); [discriminate|]. destruct (goto _ _ _) as [s|]; [|discriminate]. intros E. destruct (IH _ _ _ E) as [ds D]. eexists. rewrite D, sdefs_reduce, <- app_assoc. reflexivity.
    + destruct stk as [|[s t'] [|]]; try discriminate. intros [= ->]. exists []. unfold sdefs. cbn. rewrite !app_nil_r. reflexivity.
Qed.
(** The tokens that Lex delivers; whether it panics then. *)
Fixpoint lexp (ts : list gtok) : list ytok * bool :=
  match ts with
  | [] => ([], false)
  | t :: ts => match Lex t with Some y => (y :: fst (lexp ts), snd (lexp ts)) | None => ([], true) end
  end.
Lemma lexp_all ts : all_some Lex ts = if snd (lexp ts) then None else Some (fst (lexp ts)).
Proof. induction ts as [|t ts IH]; [reflexivity|]. cbn [all_some lexp]. destruct (Lex t); [|reflexivity]. rewrite IH. cbn [snd fst]. destruct (snd (lexp ts)); reflexivity. Qed.
Lemma only_action T s k a : only T s = Some k -> action T s a = LReduce k.
Proof. unfold only, action. destruct (state T s) as [? [|] [|] d ?]; try discriminate. cbn. intros ->. reflexivity. Qed.
Lemma top_fst {A B} (a : list (nat * A)) (b : list (nat * B)) : map fst a = map fst b -> top a = top b.
Proof. destruct a as [|[]], b as [|[]]; cbn; congruence. Qed.

(** ** A run of the driver *)
Section Sim.
Context {W V : Type}.
Variable consts : string -> option uv.
Variable ext : string -> list uv -> mm W -> mres W (list uv).
Variables (num ynum : string -> Z) (sk : nat) (toks : W -> list gtok) (pos : W -> Z) (lit : option gtok -> string) (adv : W -> W) (say : list uv -> W -> W).
Hypothesis H : scans consts ext num ynum sk toks pos lit adv say.
Variable fl : flags.
Variables (ko kt pc pu : nat).
Variable log : nat -> string -> W -> W.
Hypothesis Hext : forall k s m, ext "write" [UObj k; UStr s] m = MOk (put log k s m) [].
(** What the scanner does is not seen by the files and conversely. *)
Variable vis : W -> V.
Hypothesis Vlog : forall i s w w', vis w = vis w' -> vis (log i s w) = vis (log i s w').
Hypothesis Vadv : forall w, vis (adv w) = vis w.
Hypothesis Vsay : forall l w, vis (say l w) = vis w.
Hypothesis Tlog : forall i s w, toks (log i s w) = toks w.
Variable T : lrtab.
Hypothesis OK : lr_ok XG "spec" T = true.
Variable eager : nat -> bool.
Variables (pl pd : nat) (b : bool) (g : uenv) (c0 : list uv) (d0 : list (string * list uv)) (w0 : W).
Notation run := (urun main_pkgs consts main_pkg ext).
Notation pv := (List.length c0).
Record base : Prop := {
  b_debug : uassoc "debugFlag" g = Some (UPtr pd);
  b_names : forall a, In a ("eof" :: y_names) -> uassoc a g = None;
  b_flag : nth_error c0 pd = Some (UBool b);
  b_lexer : nth_error c0 pl = Some (UStruct "lexer" [("s", UObj sk)]);
  b_st : st fl ko kt pc pu (mkMM g c0 d0 w0) }.
Hypothesis B : base.
Definition at_ (fs : uenv) (w : W) : mm W := mkMM g (c0 ++ [UStruct "xdrSymType" fs]) d0 w.
Definition has_str (fs : uenv) : Prop := exists v, uassoc "str" fs = Some v.
Lemma nth_more {A} (l l' : list A) i a : nth_error l i = Some a -> nth_error (l ++ l') i = Some a.
Proof. intros E. rewrite nth_error_app1; [exact E|]. apply nth_error_Some. congruence. Qed.
Lemma nth_last {A} (l : list A) a : nth_error (l ++ [a]) (List.length l) = Some a.
Proof. rewrite nth_error_app2 by lia. rewrite Nat.sub_diag. reflexivity. Qed.
Lemma nset_last {A} (l : list A) a a' : nset (l ++ [a]) (List.length l) a' = l ++ [a'].
Proof. induction l as [|x l IH]; [reflexivity|]. cbn. rewrite IH. reflexivity. Qed.
Lemma lst_at fs w : has_str fs -> lst sk pl pv pd b fs g (mm_cells (at_ fs w)).
Proof. intros S. destruct B. split; [assumption|assumption|apply nth_more; assumption|apply nth_more; assumption|apply nth_last|exact S]. Qed.
Lemma st_at fs w : st fl ko kt pc pu (at_ fs w).
Proof. destruct B as [_ _ _ _ []]. split; try assumption; apply nth_more; assumption. Qed.
Definition wplay (ws : list write) (w : W) : W := fold_left (fun w x => match x with WOut s => log ko s w | WTout s => log kt s w end) ws w.
Lemma play_at ws fs w : play ko kt log ws (at_ fs w) = at_ fs (wplay ws w).
Proof. revert w. induction ws as [|[s|s] ws IH]; intros w; [reflexivity| |]; apply IH. Qed.
Lemma wplay_app a b' w : wplay (a ++ b') w = wplay b' (wplay a w). Proof. apply fold_left_app. Qed.
Lemma wplay_vis ws : forall w w', vis w = vis w' -> vis (wplay ws w) = vis (wplay ws w').
Proof. induction ws as [|[s|s] ws IH]; intros w w' E; [exact E| |]; apply IH, Vlog, E. Qed.
Lemma wplay_toks ws : forall w, toks (wplay ws w) = toks w.
Proof. induction ws as [|[s|s] ws IH]; intros w; [reflexivity| |]; cbn; rewrite IH; apply Tlog. Qed.

(** *** Reading *)
Lemma heard_vis w : vis (heard num toks pos lit adv say b w) = vis w.
Proof. unfold heard. destruct b; rewrite ?Vsay; apply Vadv. Qed.
Lemma names_eq : filter named (map snd (y_tokens xdr_y_prog)) = y_names. Proof. exact (proj1 token_names). Qed.
Lemma find_name a : In a y_names -> find (fun a' => match consts a' with Some (UInt z') => Z.eqb (ynum a) z' | _ => false end) y_names = Some a.
Proof.
  intros I. assert (forall l, (forall x, In x l -> In x y_names) -> In a l -> find (fun a' => match consts a' with Some (UInt z') => Z.eqb (ynum a) z' | _ => false end) l = Some a) as Q; [|apply Q; auto].
  induction l as [|x l IH]; intros Sub J; [destruct J|]. cbn [find]. rewrite (sc_y _ _ _ _ _ _ _ _ _ _ H) by (apply Sub; left; reflexivity). destruct (Z.eqb_spec (ynum a) (ynum x)) as [E|N].
  - f_equal. symmetry. apply (sc_ynum _ _ _ _ _ _ _ _ _ _ H); [exact I|apply Sub; left; reflexivity|exact E].
  - destruct J as [->|J]; [congruence|]. apply IH; [|exact J]. intros y Y. apply Sub. right. exact Y.
Qed.
Lemma find_none z : (z <= 255)%Z -> find (fun a' => match consts a' with Some (UInt z') => Z.eqb z z' | _ => false end) y_names = None.
Proof.
  intros L. assert (forall l, (forall x, In x l -> In x y_names) -> find (fun a' => match consts a' with Some (UInt z') => Z.eqb z z' | _ => false end) l = None) as Q; [|apply Q; auto].
  induction l as [|x l IH]; intros Sub; [reflexivity|]. cbn [find]. rewrite (sc_y _ _ _ _ _ _ _ _ _ _ H) by (apply Sub; left; reflexivity). pose proof (sc_big _ _ _ _ _ _ _ _ _ _ H x ltac:(apply Sub; left; reflexivity)).
  destruct (Z.eqb_spec z (ynum x)); [lia|]. apply IH. intros y Y. apply Sub. right. exact Y.
Qed.
Lemma sym_code y : sym_of consts xdr_y_prog (y_code ynum y) = ysym y.
Proof.
  pose proof (y_named y) as N. pose proof (y_code_pos consts ext num ynum sk toks pos lit adv say H y) as P. unfold sym_of. destruct (Z.eqb_spec (y_code ynum y) 0) as [|_]; [congruence|]. rewrite names_eq. unfold ysym, y_code in *.
  destruct (y_name y) as [a|c] eqn:E; [rewrite (find_name a N); reflexivity|]. rewrite find_none by (destruct y; cbn in E; try discriminate; injection E as <-; vm_compute; discriminate). destruct y; cbn in E; try discriminate; injection E as <-; reflexivity.
Qed.
Lemma str_tag y : tag_of xdr_y_prog (ysym y) = match y_str y with Some _ => Some "str" | None => None end.
Proof. destruct y; vm_compute; reflexivity. Qed.
Lemma read_text n fs w : has_str fs ->
  match toks w with
  | [] => exists w', read consts ext xdr_y_prog (S (S n)) pl pv (at_ fs w) = MOk (at_ fs w') (endsym, UNil) /\ vis w' = vis w /\ toks w' = []
  | t :: ts =>
      match Lex t with
      | Some y => exists fs' w', read consts ext xdr_y_prog (S (S n)) pl pv (at_ fs w) = MOk (at_ fs' w') (ysym y, tok_val y) /\ has_str fs' /\ vis w' = vis w /\ toks w' = ts
      | None => exists w', read consts ext xdr_y_prog (S (S n)) pl pv (at_ fs w) = MPanic (at_ fs w') /\ vis w' = vis w
      end
  end.
Proof.
  intros S. unfold read, at_. rewrite (lex_text consts ext num ynum sk toks pos lit adv say H n _ _ _ _ _ _ _ _ _ (lst_at fs w S)). unfold now. destruct (toks w) as [|t ts] eqn:E; cbn [hd_error].
  - exists (adv w). split; [reflexivity|]. split; [apply Vadv|]. rewrite (sc_adv _ _ _ _ _ _ _ _ _ _ H), E. reflexivity.
  - destruct (Lex t) as [y|] eqn:L.
    + cbn [mbind]. rewrite sym_code. unfold tok_field. rewrite str_tag. unfold set_str, tok_val. destruct S as [v0 S]. destruct (y_str y) as [s|].
      * destruct (uset_some "str" (UStr s) _ _ S) as [fs' F]. rewrite F. unfold mm_cells, at_. rewrite nset_last. exists fs', (heard num toks pos lit adv say b w). unfold ufield, ucell. cbn [mm_cells]. rewrite nth_last.
        pose proof (uset_assoc _ _ _ _ F) as F'. rewrite F'. split; [reflexivity|]. split; [exists (UStr s); exact F'|]. split; [apply heard_vis|]. rewrite (toks_heard consts ext num ynum sk toks pos lit adv say H), E. reflexivity.
      * exists fs, (heard num toks pos lit adv say b w). split; [reflexivity|]. split; [exists v0; exact S|]. split; [apply heard_vis|]. rewrite (toks_heard consts ext num ynum sk toks pos lit adv say H), E. reflexivity.
    + eexists. split; [reflexivity|]. rewrite Vsay. apply heard_vis.
Qed.

(** *** Steps *)
Definition feeds (look : option (string * uv)) (w : W) (rest : list ytok) (bad : bool) : Prop :=
  match look with
  | None => lexp (toks w) = (rest, bad)
  | Some (X, v) => (exists y rest', rest = y :: rest' /\ X = ysym y /\ v = tok_val y /\ lexp (toks w) = (rest', bad)) \/ (X = endsym /\ rest = [] /\ bad = false)
  end.
Lemma feeds_la X v w rest bad : feeds (Some (X, v)) w rest bad -> X = la rest.
Proof. intros [(y & r & -> & -> & _)|(-> & -> & _)]; reflexivity. Qed.
Lemma peek_text n s look fs w rest bad : has_str fs -> feeds look w rest bad ->
  (bad = true /\ exists w', peek consts ext xdr_y_prog T eager (S (S n)) pl pv s look (at_ fs w) = MPanic (at_ fs w') /\ vis w' = vis w) \/
  exists look' fs' w', peek consts ext xdr_y_prog T eager (S (S n)) pl pv s look (at_ fs w) = MOk (at_ fs' w') look' /\ has_str fs' /\ vis w' = vis w /\ feeds look' w' rest bad /\
    decide T s look' = action T s (la rest) /\ (look' = None -> exists k, forall a, action T s a = LReduce k).
Proof.
  intros S F. unfold peek. destruct look as [[X v]|].
  - right. exists (Some (X, v)), fs, w. split; [reflexivity|]. split; [exact S|]. split; [reflexivity|]. split; [exact F|]. split; [cbn [decide]; rewrite (feeds_la _ _ _ _ _ F); reflexivity|discriminate].
  - destruct (match only T s with Some _ => negb (eager s) | None => false end) eqn:O.
    + right. exists None, fs, w. split; [reflexivity|]. split; [exact S|]. split; [reflexivity|]. split; [exact F|]. cbn [decide]. destruct (only T s) as [k|] eqn:K; [|discriminate].
      split; [rewrite (only_action _ _ _ _ K); reflexivity|]. intros _. exists k. intros a. apply only_action, K.
    + clear O. cbn [feeds] in F. pose proof (read_text n fs w S) as R. destruct (toks w) as [|t ts]; [|destruct (Lex t) as [y|] eqn:L].
      * destruct R as (w' & -> & Vw & Tw). cbn in F. injection F as <- <-. right. exists (Some (endsym, UNil)), fs, w'. split; [reflexivity|]. split; [exact S|]. split; [exact Vw|]. split; [right; auto|]. split; [reflexivity|discriminate].
      * destruct R as (fs' & w' & -> & S' & Vw & Tw). cbn [lexp] in F. rewrite L in F. injection F as <- <-. right. exists (Some (ysym y, tok_val y)), fs', w'. split; [reflexivity|]. split; [exact S'|]. split; [exact Vw|].
        split; [left; exists y, (fst (lexp ts)); rewrite Tw; repeat split; apply surjective_pairing|]. split; [reflexivity|discriminate].
      * destruct R as (w' & -> & Vw). cbn [lexp] in F. rewrite L in F. injection F as <- <-. left. split; [reflexivity|]. exists w'. split; [reflexivity|exact Vw].
Qed.
Definition fin (r : mres W unit) (o : option (list write)) : Prop :=
  match o with
  | Some ws => exists ws0 fs w, eqw ws0 ws /\ r = MOk (at_ fs w) tt /\ vis w = vis (wplay ws0 w0)
  | None => exists ws0 fs w, r = MPanic (at_ fs w) /\ vis w = vis (wplay ws0 w0)
  end.
Variable ys : list ytok.
Variable n : nat.
Hypothesis HE : forall d a seg z, D_defn d seg -> ys = a ++ seg ++ z -> forall m, st fl ko kt pc pu m -> emitted ko kt log (run (S (S n)) (fst (emit_call d)) (snd (emit_call d)) m) m (emit fl d).
Lemma Forall2_rev {A C} (R : A -> C -> Prop) l l' : Forall2 R l l' -> Forall2 R (rev l) (rev l').
Proof. induction 1; cbn [rev]; [constructor|]. apply Forall2_app; [assumption|]. constructor; [assumption|constructor]. Qed.
Lemma Forall2_firstn {A C} (R : A -> C -> Prop) c l l' : Forall2 R l l' -> Forall2 R (firstn c l) (firstn c l').
Proof. intros F. revert c. induction F; intros [|c]; cbn; constructor; auto. Qed.
Lemma Forall2_skipn {A C} (R : A -> C -> Prop) c l l' : Forall2 R l l' -> Forall2 R (skipn c l) (skipn c l').
Proof. intros F. revert c. induction F; intros [|c]; cbn; auto. Qed.
Definition result (j : nat) (stk : list (nat * pt)) (rest : list ytok) (bad : bool) : option (list write) :=
  if bad then None else match lrt XG T j stk rest with LAcc t => emit_list (emit fl) (tdefs t) | _ => None end.
Lemma sim bad j : forall stk vst look fs w rest ws0 ws, weight T stk rest < j -> inv XG "spec" T stk -> has_str fs -> syield stk ++ rest = ys ->
  map fst vst = map fst stk -> Forall2 (valok consts ext) (map snd stk) (map snd vst) -> feeds look w rest bad ->
  emit_list (emit fl) (sdefs stk) = Some ws -> eqw ws0 ws -> vis w = vis (wplay ws0 w0) ->
  fin (drive consts ext xdr_y_prog T eager j (S (S n)) pl pv vst look (at_ fs w)) (result j stk rest bad).
Proof.
  induction j as [|j IH]; [lia|]. intros stk vst look fs w rest ws0 ws Wt I S Y M F Fd E Q Vw. cbn [drive]. rewrite (top_fst _ _ M).
  destruct (peek_text n (top stk) look fs w rest bad S Fd) as [(-> & w' & -> & Vw')|(look' & fs' & w' & -> & S' & Vw' & Fd' & Dec & No)].
  { cbn [mbind result]. exists ws0, fs, w'. split; [reflexivity|congruence]. }
  cbn [mbind]. rewrite Dec. rewrite <- Vw' in Vw. clear fs w S Fd look Vw'. rename fs' into fs, w' into w, S' into S. unfold result. cbn [lrt].
  destruct (action T (top stk) (la rest)) as [s|k|] eqn:A.
  - destruct rest as [|y rest]; [destruct (no_shift_end _ _ _ OK _ _ A)|]. cbn [la] in A. destruct look' as [[X v]|]; [|destruct (No eq_refl) as [k K]; rewrite K in A; discriminate].
    destruct Fd' as [(y' & r' & [= <- <-] & -> & -> & L)|(_ & ? & _)]; [|discriminate]. destruct (shift_step _ _ _ OK stk y rest s I A) as (I' & W' & Y').
    apply (IH ((s, PTok y) :: stk) ((s, tok_val y) :: vst) None fs w rest ws0 ws); try assumption; [lia|congruence|cbn; congruence| |].
    + constructor; [|exact F]. intros X _ _ n' m'. reflexivity.
    + rewrite sdefs_cons. cbn [tdefs]. rewrite app_nil_r. exact E.
  - change (prods xdr_y_prog) with XG. destruct (nth_error XG k) as [p|] eqn:Ep.
    + destruct (reduce_step _ _ _ OK stk _ k p I A Ep) as (Ls & O & s & Gt & I' & Y' & W'). set (c := List.length (p_rhs p)) in *. specialize (W' rest).
      assert (List.length vst = List.length stk) as Lv by (rewrite <- (map_length fst vst), M, map_length; reflexivity). rewrite Lv. destruct (Nat.ltb_spec (List.length stk) c) as [X|_]; [lia|].
      assert (map fst (skipn c vst) = map fst (skipn c stk)) as Ms by (rewrite <- !skipn_map, M; reflexivity). rewrite (top_fst _ _ Ms), Gt.
      assert (Forall2 (valok consts ext) (rev (map snd (firstn c stk))) (rev (map snd (firstn c vst)))) as Fc by (rewrite <- !firstn_map; apply Forall2_rev, Forall2_firstn, F).
      assert (Forall2 (valok consts ext) (map snd (skipn c stk)) (map snd (skipn c vst))) as Fs by (rewrite <- !skipn_map; apply Forall2_skipn, F).
      set (cs := rev (map snd (firstn c stk))) in *. destruct (reduce_act consts ext k p cs _ Ep O Fc) as [(D & v & Vv & R)|(D & _ & d & P & Dd & Vv & R)].
      * rewrite R. cbn [mbind]. apply (IH ((s, PNode k cs) :: skipn c stk) ((s, v) :: skipn c vst) look' fs w rest ws0 ws); try assumption; [lia|congruence|cbn; congruence|constructor; assumption|].
        unfold cs. rewrite sdefs_reduce, D, app_nil_r. exact E.
      * assert (exists a z, ys = a ++ flat_map yield cs ++ z) as (a & z & Eys).
        { exists (flat_map yield (rev (map snd (skipn c stk)))), rest. rewrite <- Y, app_assoc. f_equal. unfold syield, cs. rewrite <- flat_map_app, <- rev_app_distr, <- map_app, firstn_skipn. reflexivity. }
        pose proof (HE d a _ z Dd Eys (at_ fs w) (st_at fs w)) as Em. specialize (R (Datatypes.S (Datatypes.S n)) (at_ fs w)).
        assert (sdefs ((s, PNode k cs) :: skipn c stk) = sdefs stk ++ [d]) as Sd by (unfold cs; rewrite sdefs_reduce, D; fold cs; rewrite P; reflexivity).
        destruct (emit fl d) as [ws1|] eqn:Ed; cbn [emitted] in Em.
        -- destruct Em as (ws2 & Em & Q2). rewrite Em, play_at in R. destruct (act_run consts ext _ (p_act p) _ (at_ fs w)) as [m' v| | |]; try discriminate R. cbn in R. injection R as ->. cbn [mbind].
           apply (IH ((s, PNode k cs) :: skipn c stk) ((s, v) :: skipn c vst) look' fs (wplay ws2 w) rest (ws0 ++ ws2) (ws ++ ws1)); try assumption; [lia|congruence|cbn; congruence|constructor; [apply Vv|assumption]| | |apply eqw_app; assumption|].
           ++ unfold feeds in *. rewrite wplay_toks. exact Fd'.
           ++ rewrite Sd, emit_list_app, E. cbn [emit_list]. rewrite Ed. cbn. rewrite app_nil_r. reflexivity.
           ++ rewrite wplay_app. apply wplay_vis, Vw.
        -- destruct Em as (ws2 & Em). rewrite Em, play_at in R. destruct (act_run consts ext _ (p_act p) _ (at_ fs w)) as [m' v|m'| |]; try discriminate R. cbn in R. injection R as ->. cbn [mbind].
           assert (match lrt XG T j ((s, PNode k cs) :: skipn c stk) rest with LAcc t => emit_list (emit fl) (tdefs t) | _ => None end = None) as N.
           { destruct (lrt XG T j ((s, PNode k cs) :: skipn c stk) rest) as [t| |] eqn:Lr; try reflexivity. destruct (lrt_prefix _ _ _ _ _ Lr) as [ds ->]. rewrite Sd, <- app_assoc, emit_list_app, E. cbn [app emit_list]. rewrite Ed. reflexivity. }
           assert (forall o : option (list write), o = None -> fin (MPanic (at_ fs (wplay ws2 w))) (if bad then None else o)) as Fin.
           { intros o ->. assert ((if bad then None else None) = @None (list write)) as -> by (destruct bad; reflexivity). exists (ws0 ++ ws2), fs, (wplay ws2 w). split; [reflexivity|]. rewrite wplay_app. apply wplay_vis, Vw. }
           apply Fin. exact N.
    + destruct (accept_step _ _ _ OK stk _ k I A Ep) as (End & s & t & -> & Ot). destruct look' as [[X v]|].
      * apply la_end in End. subst rest. destruct Fd' as [(y' & r' & ? & _)|(_ & _ & ->)]; [discriminate|]. unfold sdefs in E. cbn in E. rewrite app_nil_r in E. rewrite E. exists ws0, fs, w. auto.
      * destruct (No eq_refl) as [k' K']. pose proof (K' (la rest)) as Kr. rewrite A in Kr. injection Kr as <-. destruct (accept_step _ _ _ OK _ "" k I (K' "") Ep) as (X & _). discriminate X.
  - rewrite error_text. cbn [mbind]. assert ((if bad then None else None) = @None (list write)) as -> by (destruct bad; reflexivity). exists ws0, fs, w. auto.
Qed.
End Sim.

(** ** All of a text *)
Lemma spec_wk ds ts : D_spec ds ts -> Forall ytok_ok ts -> forallb wk_defn ds = true.
Proof.
  induction 1 as [|l ts d ts' _ IH Hd]; intros F; [reflexivity|]. apply Forall_app in F. destruct F as [F F']. rewrite forallb_app, IH by assumption. cbn. rewrite (defn_wk _ _ Hd F'). reflexivity.
Qed.
Lemma lexp_ok ts : Forall gtok_ok ts -> Forall ytok_ok (fst (lexp ts)).
Proof. induction 1 as [|t ts T _ IH]; [constructor|]. cbn [lexp]. destruct (Lex t) as [y|] eqn:E; [|constructor]. constructor; [eapply Lex_ok; eassumption|exact IH]. Qed.
Definition segs (ys : list ytok) : list (list ytok) :=
  flat_map (fun i => map (fun l => firstn l (skipn i ys)) (seq 0 (S (List.length ys)))) (seq 0 (S (List.length ys))).
Lemma segs_in ys a seg z : ys = a ++ seg ++ z -> In seg (segs ys).
Proof.
  intros ->. apply in_flat_map. exists (List.length a). rewrite !List.app_length. split; [apply in_seq; lia|]. apply in_map_iff. exists (List.length seg). split; [|apply in_seq; lia].
  rewrite skipn_app, skipn_all, Nat.sub_diag. cbn [app skipn]. rewrite firstn_app, firstn_all, Nat.sub_diag. apply app_nil_r.
Qed.
Lemma segs_sub ys seg : In seg (segs ys) -> forall y, In y seg -> In y ys.
Proof. intros I y Y. apply in_flat_map in I. destruct I as (i & _ & I). apply in_map_iff in I. destruct I as (l & <- & _). rewrite <- (firstn_skipn i ys). apply in_or_app. right. rewrite <- (firstn_skipn l (skipn i ys)). apply in_or_app. left. exact Y. Qed.
Definition seg_defs (ys : list ytok) : list defn := flat_map (fun seg => match parse seg with Some ds => ds | None => [] end) (segs ys).
Lemma seg_defs_in ys d a seg z : D_defn d seg -> ys = a ++ seg ++ z -> In d (seg_defs ys).
Proof. intros D E. apply in_flat_map. exists seg. split; [eapply segs_in, E|]. rewrite (defn_parse _ _ D). left. reflexivity. Qed.
Lemma seg_defs_ok ys d : Forall ytok_ok ys -> In d (seg_defs ys) -> ok_defn d = true.
Proof.
  intros F I. apply in_flat_map in I. destruct I as (seg & S & I). destruct (parse seg) as [ds|] eqn:P; [|destruct I]. apply parse_iff in P. apply defn_ok.
  assert (Forall ytok_ok seg) as Fs. { apply Forall_forall. intros y Y. rewrite Forall_forall in F. apply F. eapply segs_sub; eassumption. }
  pose proof (spec_wk _ _ P Fs) as W. rewrite forallb_forall in W. apply W, I.
Qed.

Section Parse.
Context {W V : Type}.
Variable consts : string -> option uv.
Variable ext : string -> list uv -> mm W -> mres W (list uv).
Variables (num ynum : string -> Z) (sk : nat) (toks : W -> list gtok) (pos : W -> Z) (lit : option gtok -> string) (adv : W -> W) (say : list uv -> W -> W).
Hypothesis H : scans consts ext num ynum sk toks pos lit adv say.
Variable fl : flags.
Variables (ko kt pc pu : nat).
Variable log : nat -> string -> W -> W.
Hypothesis Hext : forall k s m, ext "write" [UObj k; UStr s] m = MOk (put log k s m) [].
Variable vis : W -> V.
Hypothesis Vlog : forall i s w w', vis w = vis w' -> vis (log i s w) = vis (log i s w').
Hypothesis Vadv : forall w, vis (adv w) = vis w.
Hypothesis Vsay : forall l w, vis (say l w) = vis w.
Hypothesis Tlog : forall i s w, toks (log i s w) = toks w.
Variable T : lrtab.
Hypothesis OK : lr_ok XG "spec" T = true.
Variable eager : nat -> bool.
(** The parser ends on every text.  If the model parses it, the writes of the model have been made; else some writes, and it has panicked. *)
Theorem parse_run gts : Forall gtok_ok gts -> exists k, forall n j, k <= n -> k <= j -> forall pl pd b g c d w, base sk fl ko kt pc pu pl pd b g c d w -> toks w = gts ->
  let o := match all_some Lex gts with Some ts => match parse ts with Some ds => emit_list (emit fl) ds | None => None end | None => None end in
  exists ws0 lv w', vis w' = vis (wplay ko kt log ws0 w) /\
  let r := xdr_parse consts ext xdr_y_prog T eager j n [UPtr pl] (mkMM g c d w) in let m' := mkMM g (c ++ [lv]) d w' in
  match o with Some ws => eqw ws0 ws /\ r = MOk m' [UInt 0] | None => r = MPanic m' end.
Proof.
  intros Fg. set (ys := fst (lexp gts)). pose proof (lexp_ok _ Fg) as Fy. fold ys in Fy.
  destruct (enough_all (fun n d => forall m, st fl ko kt pc pu m -> emitted ko kt log (urun main_pkgs consts main_pkg ext n (fst (emit_call d)) (snd (emit_call d)) m) m (emit fl d)) (seg_defs ys)) as [k K].
  { apply Forall_forall. intros d I. apply emit_enough; [exact Hext|]. eapply seg_defs_ok; eassumption. }
  exists (2 + k + lrfuel T ys). intros n j Ln Lj pl pd b g c d w B Tw o. destruct n as [|[|n]]; [lia|lia|]. unfold xdr_parse. cbn [mm_cells].
  set (fs := map (fun p : string * mx => (fst p, uzero consts main_pkg 5 (snd p))) (y_union xdr_y_prog)).
  change (with_ucells (mkMM g c d w) (c ++ [UStruct "xdrSymType" fs])) with (at_ g c d fs w).
  pose proof (sim consts ext num ynum sk toks pos lit adv say H fl ko kt pc pu log vis Vlog Vadv Vsay Tlog T OK eager pl pd b g c d w B ys n
    (fun d a seg z D E m Sm => K (S (S n)) ltac:(lia) d (seg_defs_in _ _ _ _ _ D E) m Sm) (snd (lexp gts)) j [] [] None fs w ys [] []) as P.
  assert (fin ko kt log vis g c d w (drive consts ext xdr_y_prog T eager j (S (S n)) pl (List.length c) [] None (at_ g c d fs w)) o) as Q.
  { assert (result fl T j [] ys (snd (lexp gts)) = o) as <-.
    { unfold result, o. rewrite lexp_all. fold ys. destruct (snd (lexp gts)); [reflexivity|]. pose proof (tables_parse T OK ys j ltac:(lia)) as C. destruct (lrt XG T j [] ys) as [t|stk rest|]; [|rewrite C; reflexivity|destruct C].
      destruct C as (O & Y & _). pose proof (proj1 tdefs_ok _ _ O) as D. cbn in D. rewrite Y in D. apply parse_iff in D. rewrite D. reflexivity. }
    apply P; try reflexivity; [unfold lrfuel in Lj; lia|constructor|eexists; vm_compute; reflexivity|constructor|cbn [feeds]; rewrite Tw; apply surjective_pairing|apply eqw_refl]. }
  clear P. unfold fin in Q. destruct o as [ws|].
  - destruct Q as (ws0 & fs' & w' & E & R & Vw). exists ws0, (UStruct "xdrSymType" fs'), w'. split; [exact Vw|]. split; [exact E|]. rewrite R. reflexivity.
  - destruct Q as (ws0 & fs' & w' & R & Vw). exists ws0, (UStruct "xdrSymType" fs'), w'. split; [exact Vw|]. rewrite R. reflexivity.
Qed.
End Parse.

(** The scanner of GoLex.v delivers tokens for every text. *)
Lemma lex_total n : forall semi s, (String.length s < n)%nat -> exists l, lex n semi s = Some l.
Proof.
  assert (Q : forall t (o : option (list gtok)), (exists l, o = Some l) -> exists l, option_map (cons t) o = Some l) by (intros t o [l ->]; eexists; reflexivity).
  induction n as [|n IH]; intros semi s Hn; [lia|]. destruct s as [|c r]; [eexists; reflexivity|]. cbn in Hn. cbn [lex].
  destruct (is_blank c); [apply IH; lia|].
  destruct (Ascii.eqb c nl); [destruct semi; [apply Q|]; apply IH; lia|].
  destruct (is_letter c) eqn:Lc.
  { pose proof (span_first is_idchar c r) as L. unfold is_idchar at 1 in L. rewrite Lc in L. specialize (L eq_refl).
    destruct (span is_idchar (String c r)). cbn in L. apply Q, IH; lia. }
  destruct (is_digit c || (Ascii.eqb c "." && head_is is_digit r)) eqn:Dc.
  { pose proof (scan_number_length c r Dc) as L. destruct (scan_number (String c r)). cbn in L. apply Q, IH; lia. }
  destruct (Ascii.eqb c "/" && head_is (chr "/") r); [pose proof (line_comment_length r); apply IH; lia|].
  destruct (Ascii.eqb c "/" && head_is (chr "*") r).
  { destruct r as [|c1 r]; [|pose proof (block_comment_length r) as L; cbn in Hn; destruct (block_comment r) as [b r']; cbn in L; destruct (semi && b); [apply Q|]; apply IH; lia].
    cbn. rewrite andb_false_r. apply IH; cbn; lia. }
  destruct (Ascii.eqb c dquote); [pose proof (quoted_length dquote r) as L; destruct (quoted dquote r); cbn in L; apply Q, IH; lia|].
  destruct (Ascii.eqb c "'"); [pose proof (quoted_length "'" r) as L; destruct (quoted "'" r); cbn in L; apply Q, IH; lia|].
  destruct (Ascii.eqb c "`"); [pose proof (raw_quoted_length r) as L; destruct (raw_quoted r); cbn in L; apply Q, IH; lia|].
  destruct (Ascii.eqb c ";"); [apply Q, IH; lia|].
  destruct (longest_op operators (String c r)) as [[o r']|] eqn:E.
  - apply longest_op_length in E. destruct E as [I E]. pose proof (op_pos _ I). cbn in E. apply Q, IH; lia.
  - apply Q, IH; lia.
Qed.
Lemma go_total s : exists l, go_tokens s = Some l /\ Forall gtok_ok l.
Proof. destruct (lex_total (S (String.length s)) false s ltac:(lia)) as [l E]. exists l. split; [exact E|]. eapply lex_ok, E. Qed.
