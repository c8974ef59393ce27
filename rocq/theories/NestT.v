(** The text generated for specifications with arrays inside arrays (NestB.v): the generator
    accepts them, and the emitted files declare the package of [supportedx]. *)
From Verif Require Import GoLex GLexP XLex Gram GParse GParseP Emit GEmitP GoAst Bytes XdrLib Types Interp Spec Runs GoSem GElab GLexQ GoCst GoCstP GoText GoTop GoRes GoPkg GoWf NestB NestC NestD NestF.
Open Scope string_scope.
Open Scope Z_scope.
Open Scope list_scope.

Section Names.
Variable K : list xconst.
Variable E : env.
Hypothesis KR : forall c, In c K -> mem (xc_go c) reserved = false.
Definition nokx_its := fix go (l : list decl) := match l with [] => true | d :: l => nokx_d K E d && go l end.
Definition nokx_cases := fix go (l : list (list string * decl)) := match l with [] => true | c :: l => nokx_d K E (snd c) && go l end.
Lemma nokx_wd :
  (forall t, wk t = true -> nokx K E t = true -> wd t = true) /\
  (forall t, wk_dt t = true -> nokx_dt K E t = true -> wd_dt t = true) /\
  (forall d, wk_d d = true -> nokx_d K E d = true -> wd_d d = true).
Proof.
  assert (IT : forall l, Forall (fun d => wk_d d = true -> nokx_d K E d = true -> wd_d d = true) l -> wk_its l = true -> nokx_its l = true -> wd_its l = true).
  { induction 1 as [|d l Hd _ IH]; intros W N; [reflexivity|]. cbn in *. apply andb_true_iff in W, N. destruct W as [W1 W2], N as [N1 N2]. rewrite (Hd W1 N1). exact (IH W2 N2). }
  assert (CT : forall l, Forall (fun c => wk_d (snd c) = true -> nokx_d K E (snd c) = true -> wd_d (snd c) = true) l -> wk_cases l = true -> nokx_cases l = true -> wd_cases l = true).
  { induction 1 as [|d l Hd _ IH]; intros W N; [reflexivity|]. cbn in *. apply andb_true_iff in W, N. destruct W as [W1 W2], N as [N1 N2]. apply andb_true_iff in W1. destruct W1 as [-> W1]. rewrite (Hd W1 N1). exact (IH W2 N2). }
  apply ast_ind; try (intros; assumption); try (intros; reflexivity).
  - intros l Hl W N. exact (IT l Hl W N).
  - intros s c d Hs Hc Hd W N. rewrite wk_union in W. rewrite wd_union. apply andb_true_iff in W. destruct W as [W W3]. apply andb_true_iff in W. destruct W as [W1 W2].
    change (match s with declVoid => false | declName st _ => disc_ok K E st c && nokx_dt K E st end && nokx_cases c && match d with Some d => nokx_d K E d | None => true end = true) in N.
    apply andb_true_iff in N. destruct N as [N N3]. apply andb_true_iff in N. destruct N as [N1 N2].
    rewrite (CT c Hc W2 N2). destruct s as [|st sn]; [discriminate|]. apply andb_true_iff in N1. destruct N1 as [_ N1]. rewrite (Hs W1 N1). destruct d as [d|]; [|reflexivity]. exact (Hd d eq_refl W3 N3).
  - intros t IH W N. exact (IH W N).
  - intros t sz IH W N. discriminate N.
  - intros t sz IH W N. cbn in *. apply andb_true_iff in W, N. destruct W as [W1 W2], N as [N1 N2]. rewrite (IH W1 N2). exact (GoWf.bound_valid K KR sz W2 N1).
  - intros sz W N. exact (GoWf.use_val K KR sz W N).
  - intros sz W N. exact (GoWf.bound_valid K KR sz W N).
  - intros sz W N. exact (GoWf.bound_valid K KR sz W N).
  - intros t IH W N. exact (IH W N).
  - intros t n IH W N. cbn in *. apply andb_true_iff in W. destruct W as [W ->]. rewrite (IH W N). reflexivity.
Qed.
End Names.
(** [defn_wd] (GoWf.v) needs no other condition than [nokx]; definitions without inline types
    are the same for both. *)
Lemma defnx_wd K E d : (forall c, In c K -> mem (xc_go c) reserved = false) -> (forall c, In c (xconsts_of d) -> mem (xc_go c) reserved = false) ->
  wk_defn d = true -> nokx_defn K E d = true -> prog_named E d = true -> wd_defn d = true.
Proof.
  intros KR KD W N P. destruct (nokx_wd K E KR) as (N1 & N2 & N3). destruct d as [n v|d|n l|n l|n s c d|p].
  - exact (defn_wd K E _ KR KD W N P).
  - exact (N3 d W N).
  - exact (defn_wd K E _ KR KD W N P).
  - cbn [wk_defn nokx_defn wd_defn] in *. apply andb_true_iff in W. destruct W as [-> W]. cbn [andb]. exact (N1 (typeStruct l) W N).
  - cbn [wk_defn nokx_defn wd_defn] in *. apply andb_true_iff in W. destruct W as [-> W]. cbn [andb]. exact (N1 (typeUnion s c d) W N).
  - exact (defn_wd K E (defProg p) KR KD W eq_refl P).
Qed.
(** As [supported_prog] and [spec_prog] (GoWf.v, GenText.v), with [supportedx]. *)
Definition supportedx_prog (fl : flags) (ds : list defn) : option (env * gprog) :=
  do EG <- supportedx fl ds ;
  do P <- prog_of fl ds ;
  if forallb (prog_named (fst EG)) ds && nodupb (decl_names P) then Some (fst EG, P) else None.
Lemma supportedx_prog_inv fl ds E P : supportedx_prog fl ds = Some (E, P) ->
  supportedx fl ds = Some (E, gp_pkg P) /\ prog_of fl ds = Some P /\ forallb (prog_named E) ds = true.
Proof.
  unfold supportedx_prog. intros H. sinv H. sinv H. destruct a as [E' G]. cbn [fst] in H. destruct (_ && _) eqn:Q in H; [|discriminate]. injection H as -> ->. apply andb_true_iff in Q. destruct Q as [Q1 Q2].
  destruct (sup_inv _ _ _ _ E0) as (_ & HG & _). assert (gp_pkg P = G) as ->; [|auto]. unfold prog_of in E1. rewrite HG in E1. cbn [pbind] in E1. sinv E1. injection E1 as <-. reflexivity.
Qed.
Theorem nest_declares fl src ds E P : ok_flags fl = true -> front src = Some ds -> supportedx_prog fl ds = Some (E, P) ->
  exists o, generate fl src = Some o /\ declares (fl_pkg fl) (files_of o) P.
Proof.
  intros F Fr S. apply supportedx_prog_inv in S. destruct S as (S & PO & PN). destruct (sup_inv _ _ _ _ S) as (_ & HG & NK & _ & NR).
  assert (KR : forall c, In c (xconsts ds) -> mem (xc_go c) reserved = false).
  { intros c I. destruct (mem (xc_go c) reserved) eqn:M; [|reflexivity]. exfalso. apply mem_In in M. revert M. apply NR. unfold pkg_names. apply in_or_app. right. unfold pkg_of in HG. sinv HG. sinv HG. injection HG as HG. rewrite <- HG. cbn [g_consts]. apply xconsts_names, I. }
  assert (W : forallb wd_defn ds = true).
  { pose proof (front_wk _ _ Fr) as W. rewrite forallb_forall in *. intros d I. apply (defnx_wd (xconsts ds) E d KR); [|apply W, I|apply NK, I|apply PN, I].
    intros c Ic. apply KR. unfold xconsts. apply in_flat_map. exists d. split; assumption. }
  destruct (list_emits _ _ _ PO) as [ws Hw].
  assert (exists o, generate fl src = Some o) as [o Ho]; [unfold generate; rewrite Fr; cbn [pbind]; rewrite Hw; cbn [pbind]; eauto|].
  exists o. split; [exact Ho|]. destruct (gen_files fl src ds o F Fr W Ho) as (P' & PO' & D). assert (P = P') as -> by congruence. exact D.
Qed.
Theorem nest_text fl src ds E P : ok_flags fl = true -> front src = Some ds -> supportedx_prog fl ds = Some (E, P) ->
  exists o, generate fl src = Some o /\ declares (fl_pkg fl) (files_of o) P /\ forall p P', declares p (files_of o) P' ->
  forall D d x t p0 t1 sz1 p t2 sz2 q m1 m2, In d ds -> root d = Some (x, t, p0) -> good D E (CIdent x) ->
  can_dt (xconsts ds) E (declTypeVarArray t1 sz1) t p -> can (xconsts ds) E (declTypeVarArray t2 sz2) t1 q -> touches t2 = true ->
  xbound (xconsts ds) sz1 = Some m1 -> xbound (xconsts ds) sz2 = Some m2 ->
  (within m1 1 /\ within m2 2) \/ (within m1 2 /\ within m2 1) ->
  exists v b, has_ty E (CIdent x) v /\ Encode E (CIdent x) v b None /\
    exists M, forall m a, (M <= m)%nat -> call (gp_pkg P') m x (MakeWriter a) v = GPanic.
Proof.
  intros F Fr S. destruct (nest_declares _ _ _ _ _ F Fr S) as (o & G & Dc). exists o. split; [exact G|]. split; [exact Dc|]. intros p' P' D'. rewrite (declares_det _ _ _ _ _ D' Dc). apply supportedx_prog_inv in S. destruct S as (S & _). exact (nest_panics_good _ _ _ _ S).
Qed.
(** A nesting with bounds, an optional and a union, for the example of C49. *)
Definition ny_src : string := "const N = 1; union un switch (bool b) { case TRUE: struct { struct { hyper c<3>; } *o; } a<N>; default: void; };".
