(** The server's goroutines run to the end: no crash, and every request of the input is dealt with. *)
From Coq Require Import Permutation.
From Verif Require Import Bytes XdrLib Types Interp Spec Runs Check RpcTypes RpcSpec RpcWire RpcDec Io Client CallSpec Server ServSpec ServerP ServerQ ServerX ServerL
  Heap HeapP HeapQ Conc ConcP ConcQ ConcR ConcEx ConcL.
Open Scope string_scope.
Open Scope Z_scope.
Open Scope list_scope.

(** Nothing but the pool losing buffers can happen any more (readers of connections below [K], all handlers). *)
Definition stopped {W L} linit hstep (K : nat) (c : cfg W L) : Prop := forall c', act linit hstep K c c' -> still c c'.

Lemma mark_inj a b : [mark (zlen a) ++ a] = [mark (zlen b) ++ b] -> a = b.
Proof.
  intros H. apply (f_equal (hd [])) in H. cbn [hd] in H.
  assert (L : forall n, List.length (mark n) = 4%nat) by (intros; apply be4_len).
  apply (f_equal (skipn 4)) in H. rewrite !skipn_app, !L, !skipn_all2 in H by (rewrite L; lia). exact H.
Qed.
Lemma ended_stopped {W L} linit hstep K (c : cfg W L) : ended K c -> stopped linit hstep K c.
Proof.
  intros [Ht Hd] c' [S Hk].
  assert (RD : forall f i kk (a : reader), (forall j, (j < K)%nat -> exists e, k_rd (f j) = RDone e) ->
    (forall j, (K <= j)%nat -> k_rd (updk f i kk j) = k_rd (f j)) -> k_rd (f i) = a -> (forall e, a <> RDone e) -> k_rd kk = k_rd (f i) /\ forall j, k_rd (updk f i kk j) = k_rd (f j)).
  { intros f i kk a D Q E N. destruct (le_lt_dec K i) as [G|G].
    - assert (k_rd kk = k_rd (f i)) as X by (rewrite <- (Q i G); unfold updk; rewrite Nat.eqb_refl; reflexivity). split; [exact X|].
      intros j. unfold updk. destruct (Nat.eqb_spec j i) as [->|]; [exact X|reflexivity].
    - destruct (D i G) as [e He]. exfalso. apply (N e). congruence. }
  destruct S; cbn [c_tasks c_conns] in *; unfold still; cbn [c_tasks c_conns c_crashed];
    try (apply app_eq_nil in Ht; destruct Ht as [_ Ht]; discriminate Ht);
    try (split; [reflexivity|split; [reflexivity|]]; reflexivity);
    match goal with E : k_rd (?f ?i) = ?a |- context [updk ?f ?i ?kk] => destruct (RD f i kk a Hd Hk E ltac:(discriminate)) as [X1 X2] end;
    try (split; [reflexivity|split; [reflexivity|exact X2]]).
  exfalso. rewrite H in X1. discriminate X1.
Qed.

Section Srv.
Context {W : Type}.
Variable srv : nat -> server W.
Variable regs : nat -> list (registration W).
Hypothesis srv_ok : forall i, reach (srv i) (regs i) /\ regs_ok (regs i).
Hypothesis prompt_ok : forall i, prompt_regs (regs i).
Variables (h0 : heap) (ins : nat -> list (list byte) * ioerr) (w0 : W).
Hypothesis ins_ok : forall i, chunks_ok (fst (ins i)).
Notation hstep := (reply_step srv).
Notation start := (@init W unit h0 ins w0).

Lemma reply_total i own w l : exists r, hstep i own w l r /\
  match r with HMore _ o _ | HEnd _ o _ => List.length o = List.length own | HPanic => True end.
Proof.
  destruct (srv_ok i) as [Hr Hg]. destruct (make_total (srv i) (regs i) w own Hr Hg (prompt_ok i)) as (w' & [e|rec] & N & H).
  - eexists. split; [exact (RS_err srv i own w l N w' e (H N (le_n _)))|reflexivity].
  - eexists. split; [exact (RS_reply srv i own w l N w' rec (H N (le_n _)))|reflexivity].
Qed.
Lemma reply_more i own w l w' o l' : hstep i own w l (HMore w' o l') -> (0 < 0)%nat.
Proof. intros H. inversion H. Qed.
Lemma reply_no_panic i own w l : ~ hstep i own w l HPanic.
Proof. intros H. inversion H as [| |n Hp]. destruct (srv_ok i) as [Hr Hg]. exact (make_no_panic _ _ _ _ _ Hr Hg (prompt_ok i) Hp). Qed.
Lemma never_crashes c : steps tt hstep start c -> c_crashed c = false.
Proof.
  intros R. remember start as c0 eqn:E. induction R as [c|c1 c2 c3 R IH S]; [subst; reflexivity|].
  destruct S; try reflexivity. exfalso. eapply reply_no_panic. eassumption.
Qed.
Lemma srv_finite K n c : sched tt hstep K n start c -> (n <= 1 + K + 7 * input_bytes ins K)%nat.
Proof. intros S. exact (sched_finite tt hstep (fun _ => 0%nat) reply_more h0 ins w0 ins_ok K n c S). Qed.
Lemma srv_to_the_end K n c : sched tt hstep K n start c -> exists m c', (n <= m)%nat /\ sched tt hstep K m start c' /\ ended K c'.
Proof.
  intros S. destruct (to_the_end tt hstep (fun _ => 0%nat) reply_more h0 ins w0 ins_ok reply_total K n c S) as (m & c' & S' & L & [X|X]).
  - rewrite (never_crashes c' (sched_steps _ _ _ _ _ _ S')) in X. discriminate.
  - eauto.
Qed.
Lemma srv_stuck K n c : sched tt hstep K n start c -> stopped tt hstep K c -> ended K c.
Proof.
  intros S H. eapply (stuck_ended tt hstep (fun _ => 0%nat) reply_more h0 ins w0 ins_ok reply_total); [exact S|exact H|].
  exact (never_crashes c (sched_steps _ _ _ _ _ _ S)).
Qed.
Lemma srv_done K c : steps tt hstep start c -> ended K c -> forall i, (i < K)%nat -> k_broken (c_conns c i) = false ->
  (exists N s' e', forall n, (N <= n)%nat ->
     run_loop n stream_conn (mkStream (fst (ins i)) (snd (ins i)) []) [] = Ret (s', k_reqs (c_conns c i), e')) /\
  Permutation (map fst (k_out (c_conns c i)) ++ k_quiet (c_conns c i)) (seq 0 (List.length (k_reqs (c_conns c i)))) /\
  received (c_conns c i) = List.concat (map snd (k_out (c_conns c i))).
Proof.
  intros R [Ht Hd] i Hi Hb. destruct (Hd i Hi) as [e He]. eapply c42_quiescent; try eassumption. rewrite Ht. intros t [].
Qed.
(** Procedures whose results can be encoded: a call is answered. *)
Lemma srv_answers K c : steps tt hstep start c -> ended K c -> forall i, (i < K)%nat -> k_broken (c_conns c i) = false ->
  (forall r h s w w' res e, In r (regs i) -> rg_handler r = Some h -> HRuns h s w (w', res, e) -> res_bounded res) ->
  forall k req xid rv prog vers proc f1 b1 f2 b2 args, nth_error (k_reqs (c_conns c i)) k = Some req ->
  is_call DEC req xid rv prog vers proc f1 b1 f2 b2 args ->
  exists t, In (k, mark (zlen (be4 xid ++ be4 1 ++ t)) ++ be4 xid ++ be4 1 ++ t) (k_out (c_conns c i)).
Proof.
  intros R Hend i Hi Hb Hbd k req xid rv prog vers proc f1 b1 f2 b2 args Hk Hcall.
  destruct (srv_ok i) as [Hr Hg]. destruct (srv_done K c R Hend i Hi Hb) as (_ & P & _).
  assert (In k (map fst (k_out (c_conns c i)) ++ k_quiet (c_conns c i))) as Hin.
  { eapply Permutation_in; [apply Permutation_sym; exact P|]. apply in_seq. split; [lia|]. apply nth_error_Some. rewrite Hk. discriminate. }
  assert (forall w w' rep, sends (srv i) w req w' rep -> exists t, rep = be4 xid ++ be4 1 ++ t) as Hs.
  { intros w w' rep Hsd. pose proof (Hsd _ (logged stream_conn) (mkStream [] EOF [], [])) as Hh. cbn [logged c_write fst snd stream_conn] in Hh.
    destruct (c35_one _ _ _ _ _ _ _ _ _ _ _ _ _ _ _ _ _ _ _ _ _ Hr Hg Hcall Hh) as [(rep' & t & -> & E)|(E & _)]; [|discriminate E].
    exists t. eapply mark_inj. exact E. }
  apply in_app_or in Hin. destruct Hin as [Hin|Hin].
  - apply in_map_iff in Hin. destruct Hin as ([k' rec] & Ek & Hin). cbn in Ek. subst k'.
    destruct (c42_out _ _ srv_ok _ _ _ ins_ok _ R i k rec Hin) as (req' & w & w' & rep & Hk' & Hsd & ->).
    rewrite Hk in Hk'. injection Hk' as <-. destruct (Hs _ _ _ Hsd) as [t ->]. exists t. exact Hin.
  - exfalso. destruct (c42_serial _ _ srv_ok _ _ _ ins_ok _ R) as (tr & Ser & _ & _ & Q & _). specialize (Q i k Hin).
    assert (exists w w', silent (srv i) w req w') as (w & w' & Hsil).
    { clear -Ser Q Hk. induction Ser as [|tr w j k' rq w' rep S IH Hn Hs|tr w j k' rq w' S IH Hn Hs]; [destruct Q| |]; apply in_app_or in Q; destruct Q as [Q|[Q|[]]]; auto; [discriminate|].
      injection Q as -> ->. rewrite Hk in Hn. injection Hn as <-. eauto. }
    destruct (Hsil _ (logged stream_conn) (mkStream [] EOF [], [])) as [e Hh].
    destruct (c35_one _ _ _ _ _ _ _ _ _ _ _ _ _ _ _ _ _ _ _ _ _ Hr Hg Hcall Hh) as [(rep' & t & -> & E)|(_ & _ & _ & h & res & e' & (pre & post & El & _) & HR & Hnb)]; [discriminate E|].
    apply Hnb. eapply (Hbd (mkReg prog vers proc (Some h)) h); [rewrite El; apply in_or_app; right; left; reflexivity|reflexivity|exact HR].
Qed.
End Srv.

(** ** The echo server *)
Lemma exk_prompt : prompt_regs exk_regs.
Proof.
  intros r [<-|[]]. eexists. split; [reflexivity|]. apply stub_prompt; [|intros x w; eexists; reflexivity]. split; [|split].
  - intros t [= <-]. exists 1%nat. apply (goodb_sound 1). reflexivity.
  - intros t [= <-]. exists 1%nat. apply (goodb_sound 1). reflexivity.
  - intros x w w' y [= _ <-]. eexists. split; [reflexivity|]. destruct x as [[]|]; constructor.
Qed.
Lemma exk_bytes : input_bytes exk_ins 2 = 110%nat. Proof. vm_compute. reflexivity. Qed.

Definition actor (a : action) : option nat := match a with AHdr i | AGet i _ | ABody i | AGo i => Some i | _ => None end.
Lemma exec_act {W} (srv : nat -> server W) K a c c' : match actor a with Some i => (i < K)%nat | None => True end ->
  exec srv a c = Some c' -> act tt (reply_step srv) K c c'.
Proof.
  intros Ha H. split; [exact (exec_sound srv a c c' H)|]. intros j Hj. destruct c as [h p f ts w cr hi]. cbn [c_conns]. destruct a; cbn [exec actor] in *;
  repeat match type of H with
  | None = Some _ => discriminate H
  | Some _ = Some _ => injection H as <-
  | context [match ?x with _ => _ end] => destruct x
  end; cbn [c_conns]; try reflexivity; unfold updk; match goal with |- context [Nat.eqb j ?i] => destruct (Nat.eqb_spec j i) as [->|] end; try reflexivity; try lia.
Qed.
Lemma execs_sched {W} (srv : nat -> server W) K l : forall n c0 c c', Forall (fun a => match actor a with Some i => (i < K)%nat | None => True end) l ->
  sched tt (reply_step srv) K n c0 c -> execs srv l c = Some c' -> sched tt (reply_step srv) K (List.length l + n) c0 c'.
Proof.
  induction l as [|a l IH]; intros n c0 c c' F S H; cbn [execs] in H; [injection H as <-; exact S|].
  destruct (exec srv a c) as [c1|] eqn:E; [|discriminate]. inversion F; subst. cbn [List.length]. replace (Datatypes.S (List.length l) + n)%nat with (List.length l + Datatypes.S n)%nat by lia.
  eapply IH; [assumption| |exact H]. econstructor; [exact S|]. eapply exec_act; eassumption.
Qed.
(** Twenty-three actions to the end. *)
Lemma c60_ex : exists c, sched tt (reply_step (fun _ => exk_srv)) 2 23 (init [] exk_ins 0) c /\ ended 2 c /\
  k_broken (c_conns c 0) = false /\ k_reqs (c_conns c 0) = [exk_req 1 exk_a; exk_req 2 exk_b] /\
  k_out (c_conns c 0) = [(1%nat, record (exk_rep 2 exk_b)); (0%nat, record (exk_rep 1 exk_a))].
Proof.
  destruct (execs (fun _ => exk_srv) exk_sched (init [] exk_ins 0)) as [c|] eqn:E; [|vm_compute in E; discriminate].
  exists c. split.
  - refine (execs_sched _ 2 exk_sched 0 _ _ _ _ (sched_0 _ _ _ _) E). repeat constructor; cbn; lia.
  - vm_compute in E. injection E as <-. split; [split; [reflexivity|]|vm_compute; repeat split].
    intros [|[|i]] Hi; [eexists; reflexivity|eexists; reflexivity|lia].
Qed.
