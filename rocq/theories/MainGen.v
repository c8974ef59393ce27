(** All actions of a parse (/repo/xdr.y:178-191), run by the text of /repo/out.go. *)
From Verif Require Import GoLex GLexP XLex Gram GParse GParseP Emit GEmitP.
From Verif Require GoWf.
From Verif Require Import GSync RepoText GLexQ GoTop SrcAst MainAst MainProg MainSem MainOut MainEmit.
Open Scope string_scope.
Open Scope list_scope.

(** ** Names read from a source text can be capitalised *)
Lemma letter_ascii c : is_letter c = true -> is_ascii c = true.
Proof. destruct c as [[] [] [] [] [] [] [] []]; try discriminate; reflexivity. Qed.
Lemma digit_ascii c : is_digit c = true -> is_ascii c = true.
Proof. destruct c as [[] [] [] [] [] [] [] []]; try discriminate; reflexivity. Qed.
Lemma word_nm s : is_word s = true -> nm s = true.
Proof. destruct s as [|c s]; [discriminate|]. cbn. rewrite andb_true_iff. intros [H _]. apply letter_ascii, H. Qed.
Lemma lab_nm s : GoText.is_lab s = true -> nm s = true.
Proof.
  unfold GoText.is_lab. rewrite orb_true_iff. intros [H|H]; [|apply word_nm, H]. unfold is_int in H. apply andb_true_iff in H. destruct H as [H _].
  destruct s as [|c s]; [discriminate|]. apply digit_ascii, H.
Qed.
Ltac spl := repeat match goal with H : _ && _ = true |- _ => apply andb_true_iff in H; destruct H end.
Lemma wk_ok : (forall t, GoWf.wk t = true -> ok_spec t = true) /\ (forall t, GoWf.wk_dt t = true -> ok_dtype t = true) /\ (forall d, GoWf.wk_d d = true -> ok_decl d = true).
Proof.
  apply ast_ind; try (intros; reflexivity).
  - intros l IH H. change (GoWf.wk_its l = true) in H. cbn [ok_spec]. induction IH as [|d l D _ IH]; [reflexivity|]. cbn [GoWf.wk_its] in H. fold GoWf.wk_its in H. spl. cbn [forallb]. rewrite D, IH by assumption. reflexivity.
  - intros s c d Hs Hc Hd H. rewrite GoWf.wk_union in H. spl. cbn [ok_spec]. rewrite Hs by assumption.
    assert (forallb (fun c : list string * decl => forallb nm (fst c) && ok_decl (snd c)) c = true) as ->.
    { clear Hs Hd. induction Hc as [|x c X _ IH]; [reflexivity|]. cbn [GoWf.wk_cases] in *. fold GoWf.wk_cases in *. spl. cbn [forallb]. rewrite X, IH by assumption. rewrite !andb_true_r.
      destruct (fst x) as [|a b]; [reflexivity|]. rewrite forallb_forall in *. intros y Y. apply lab_nm. match goal with Q : forall y, In y (a :: b) -> _ |- _ => apply Q, Y end. }
    destruct d as [d|]; [|reflexivity]. rewrite (Hd d eq_refl) by assumption. reflexivity.
  - intros n H. apply word_nm, H.
  - intros t IH H. apply IH, H.
  - intros t z IH H. cbn in H. spl. apply IH. assumption.
  - intros t z IH H. cbn in H. spl. apply IH. assumption.
  - intros t IH H. apply IH, H.
  - intros t n IH H. cbn in H. spl. cbn [ok_decl]. rewrite IH by assumption. apply word_nm. assumption.
Qed.
Lemma opt_ok o : GoWf.wk_opt o = true -> ok_opt o = true.
Proof. destruct o as [t|]; [apply wk_ok|reflexivity]. Qed.
Lemma call_ok c : GoWf.wk_call c = true -> ok_call c = true.
Proof. unfold GoWf.wk_call, ok_call. intros H. spl. rewrite word_nm, !opt_ok by assumption. reflexivity. Qed.
Lemma forallb_imp {A} (f g : A -> bool) l : (forall a, f a = true -> g a = true) -> forallb f l = true -> forallb g l = true.
Proof. intros I. rewrite !forallb_forall. intros H a A1. apply I, H, A1. Qed.
Lemma ver_ok v : GoWf.wk_ver v = true -> ok_ver v = true.
Proof. unfold GoWf.wk_ver, ok_ver. intros H. spl. rewrite word_nm by assumption. eapply forallb_imp; [apply call_ok|eassumption]. Qed.
Lemma defn_ok d : GoWf.wk_defn d = true -> ok_defn d = true.
Proof.
  destruct d as [x v|d|x l|x l|x s c d|p]; cbn [GoWf.wk_defn ok_defn]; intros H; spl; rewrite ?word_nm by assumption.
  - reflexivity.
  - apply wk_ok, H.
  - eapply forallb_imp; [|eassumption]. intros a A. apply word_nm. unfold GoWf.wk_item in A. spl. assumption.
  - apply (proj1 wk_ok (typeStruct l)). assumption.
  - apply wk_ok. assumption.
  - eapply forallb_imp; [apply ver_ok|eassumption].
Qed.
Theorem front_ok src ds : front src = Some ds -> forallb ok_defn ds = true.
Proof. intros H. eapply forallb_imp; [apply defn_ok|eapply GoWf.front_wk, H]. Qed.

Section Gen.
Context {W : Type}.
Variable consts : string -> option uv.
Variable ext : string -> list uv -> mm W -> mres W (list uv).
(** The calls of the actions of a list of definitions, in order. *)
Fixpoint actions (n : nat) (ds : list defn) (m : mm W) : mres W unit :=
  match ds with
  | [] => MOk m tt
  | d :: ds => mbind (urun main_pkgs consts main_pkg ext n (fst (emit_call d)) (snd (emit_call d)) m) (fun _ m => actions n ds m)
  end.
Variable fl : flags.
Variables (ko kt pc pu : nat).
Variable log : nat -> string -> W -> W.
Notation put := (put log). Notation play := (play ko kt log). Notation st := (st fl ko kt pc pu).
Hypothesis Hext : forall k s m, ext "write" [UObj k; UStr s] m = MOk (put k s m) [].
Definition acted (r : mres W unit) (m : mm W) (o : option (list write)) : Prop :=
  match o with Some ws => exists ws0, r = MOk (play ws0 m) tt /\ eqw ws0 ws | None => exists ws0, r = MPanic (play ws0 m) end.
Lemma actions_text ds : forallb ok_defn ds = true -> enough (fun n => forall m, st m -> acted (actions n ds m) m (emit_list (emit fl) ds)).
Proof.
  induction ds as [|d ds IH]; cbn [forallb]; intros O; [exists 0; intros n _ m S; exists []; split; [reflexivity|apply eqw_refl]|].
  apply andb_true_iff in O. destruct O as [O Os]. destruct (IH Os) as [k K]. destruct (emit_enough consts ext fl ko kt pc pu log Hext d O) as [k' K'].
  exists (max k k'). intros n Le m S. specialize (K' n ltac:(lia) m S). cbn [actions emit_list]. destruct (emit fl d) as [ws|].
  - destruct K' as (ws0 & E & Q). rewrite E. cbn [mbind pbind]. specialize (K n ltac:(lia) (play ws0 m) (st_play _ _ _ _ _ _ _ _ S)).
    destruct (emit_list (emit fl) ds) as [ws'|]; cbn [pbind].
    + destruct K as (ws1 & E1 & Q1). rewrite E1. exists (ws0 ++ ws1). split; [rewrite play_app; reflexivity|apply eqw_app; assumption].
    + destruct K as (ws1 & E1). rewrite E1. exists (ws0 ++ ws1). rewrite play_app. reflexivity.
  - destruct K' as (ws0 & E). rewrite E. exists ws0. reflexivity.
Qed.
End Gen.

(** ** Files as texts *)
Definition files : Type := nat -> string.
Definition append_to (k : nat) (s : string) (w : files) : files := fun j => if Nat.eqb j k then w j +++ s else w j.
Lemma play_files ko kt ws (m : mm files) : let w' := mm_world (play ko kt append_to ws m) in
  w' ko = mm_world m ko +++ out_text (negb (Nat.eqb ko kt)) ws /\ (ko <> kt -> w' kt = mm_world m kt +++ tout_text ws) /\
  (forall j, j <> ko -> j <> kt -> w' j = mm_world m j).
Proof.
  cbv zeta. revert m. induction ws as [|w ws IH]; intros m; [cbn; rewrite !sapp_nil; repeat split; reflexivity|]. destruct w as [s|s]; cbn [out_text tout_text].
  - change (play ko kt append_to (WOut s :: ws) m) with (play ko kt append_to ws (put append_to ko s m)). destruct (IH (put append_to ko s m)) as (A & B & C). split; [|split].
    + rewrite A. cbn [put mm_world]. unfold append_to. rewrite Nat.eqb_refl, sapp_assoc. reflexivity.
    + intros N. rewrite B by exact N. cbn [put mm_world]. unfold append_to. destruct (Nat.eqb_spec kt ko); [congruence|]. reflexivity.
    + intros j N N'. rewrite C by assumption. cbn [put mm_world]. unfold append_to. destruct (Nat.eqb_spec j ko); [congruence|reflexivity].
  - change (play ko kt append_to (WTout s :: ws) m) with (play ko kt append_to ws (put append_to kt s m)). destruct (IH (put append_to kt s m)) as (A & B & C). split; [|split].
    + rewrite A. cbn [put mm_world]. unfold append_to. destruct (Nat.eqb_spec ko kt) as [->|N]; cbn [negb]; [rewrite sapp_assoc; reflexivity|reflexivity].
    + intros N. rewrite B by exact N. cbn [put mm_world]. unfold append_to. rewrite Nat.eqb_refl, sapp_assoc. reflexivity.
    + intros j N N'. rewrite C by assumption. cbn [put mm_world]. unfold append_to. destruct (Nat.eqb_spec j kt); [congruence|reflexivity].
Qed.
(** The state in which main.go:77 calls xdrParse. *)
Record ready (fl : flags) (ko kt pc pu : nat) (m : mm files) : Prop := {
  r_st : st fl ko kt pc pu m;
  r_one : fl_types fl = negb (Nat.eqb ko kt);
  r_out : mm_world m ko = out_header fl;
  r_tout : fl_types fl = true -> mm_world m kt = tout_header fl }.
Theorem generate_text consts ext fl src ds ko kt pc pu : front src = Some ds ->
  (forall k s m, ext "write" [UObj k; UStr s] m = MOk (put append_to k s m) []) ->
  enough (fun n => forall m, ready fl ko kt pc pu m ->
    match generate fl src with
    | Some (o, t) => exists m', actions consts ext n ds m = MOk m' tt /\ mm_world m' ko = o /\
        match t with Some t => mm_world m' kt = t | None => ko = kt end /\ (forall j, j <> ko -> j <> kt -> mm_world m' j = mm_world m j)
    | None => exists m', actions consts ext n ds m = MPanic m' /\ (forall j, j <> ko -> j <> kt -> mm_world m' j = mm_world m j)
    end).
Proof.
  intros F X. destruct (actions_text consts ext fl ko kt pc pu append_to X ds (front_ok _ _ F)) as [k K]. exists k. intros n L m [S One Ho Ht].
  specialize (K n L m S). unfold generate. rewrite F. cbn [pbind]. destruct (emit_list (emit fl) ds) as [ws|]; cbn [pbind].
  - destruct K as (ws0 & E & [Q1 Q2]). exists (play ko kt append_to ws0 m). split; [exact E|]. destruct (play_files ko kt ws0 m) as (A & B & C). rewrite A, Ho, <- One, Q1. split; [reflexivity|]. split; [|exact C].
    destruct (fl_types fl) eqn:T.
    + destruct (Nat.eqb_spec ko kt) as [|N]; [discriminate|]. rewrite B, Ht, Q2 by (reflexivity || exact N). reflexivity.
    + destruct (Nat.eqb_spec ko kt) as [|N]; [assumption|discriminate].
  - destruct K as (ws0 & E). exists (play ko kt append_to ws0 m). split; [exact E|]. apply (play_files ko kt ws0 m).
Qed.

(** ** Examples *)
Definition ex_write (f : string) (args : list uv) (m : mm files) : mres files (list uv) :=
  if String.eqb f "write" then match args with [UObj k; UStr s] => MOk (put append_to k s m) [] | _ => MStuck end else MStuck.
Definition ex_ready : mm files :=
  mkMM [("out", UObj 0); ("tout", UObj 1); ("constTypeFlag", UPtr 0); ("unsignedEnumFlag", UPtr 1)] [UStr "uint32"; UBool true] []
    (fun j => if Nat.eqb j 0 then out_header (make_flags "rfc1057") else if Nat.eqb j 1 then tout_header (make_flags "rfc1057") else "").
Definition ex_run (fl : nat) (src : string) (f : files -> bool) : bool :=
  match front src with
  | Some ds => match actions (fun _ => None) ex_write fl ds ex_ready with MOk m' _ => f (mm_world m') | _ => false end
  | None => false
  end.
Lemma ex_run_sound fl src f : ex_run fl src f = true -> exists ds m', front src = Some ds /\ actions (fun _ => None) ex_write fl ds ex_ready = MOk m' tt /\ f (mm_world m') = true.
Proof. unfold ex_run. destruct (front src) as [ds|]; [|discriminate]. destruct (actions _ _ fl ds ex_ready) as [m' []|m'|m'|] eqn:E; try discriminate. intros H. exists ds, m'. repeat split; assumption. Qed.
Lemma ex_ran : ex_run 12 rfc1057_prot_x (fun w => same_gob (w 0) rfc1057_xdr_go && same_gob (w 1) rfc1057_types_go) = true.
Proof. vm_compute. reflexivity. Qed.
Lemma ex_actions : exists ds m', front rfc1057_prot_x = Some ds /\ ready (make_flags "rfc1057") 0 1 0 1 ex_ready /\
  actions (fun _ => None) ex_write 12 ds ex_ready = MOk m' tt /\ same_go (mm_world m' 0) rfc1057_xdr_go /\ same_go (mm_world m' 1) rfc1057_types_go.
Proof.
  destruct (ex_run_sound _ _ _ ex_ran) as (ds & m' & F & A & H). apply andb_true_iff in H. destruct H as [H1 H2]. exists ds, m'. split; [exact F|]. split; [repeat split|]. split; [exact A|].
  split; apply same_gob_sound; assumption.
Qed.
