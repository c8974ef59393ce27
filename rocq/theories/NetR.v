(** Concurrent clients see the server's procedures take effect one at a time (linearizability). *)
From Coq Require Import Permutation.
From Verif Require Import Bytes XdrLib Types Interp Spec Meta Canon Runs Codec RpcTypes RpcSpec RpcWire RpcDec Io Client CallSpec ClientP CliConc
  Server ServSpec ServerP ServerQ ServerX Heap HeapP HeapQ Conc ConcP ConcQ ConcR ConcM Net NetP NetQ.
From Verif Require E2E.
Open Scope string_scope.
Open Scope Z_scope.
Open Scope list_scope.

Lemma some_inj {A} (a b : A) : Some a = Some b -> a = b.
Proof. intros H. injection H as H. exact H. Qed.

Section Lin.
Context {W : Type}.
Variable srv : nat -> server W.
Variable cl : nat -> client.

Variable regs : nat -> list (registration W).
Hypothesis srv_ok : forall i, reach (srv i) (regs i) /\ regs_ok (regs i).
Hypothesis cl_ok : forall i, client_ok (cl i).
Variable prog : nat -> list result -> option callreq.

Notation linear := (linear srv cl).
Notation explains := (explains srv cl).
Section Ok.
Hypothesis prog_ok : calls_ok srv prog cl.
Variables (h0 : heap) (w0 : W).
Notation nsteps := (nsteps srv prog).
Notation start := (ninit h0 w0 cl).

Definition strip (e : entry_t) : nat * nat * option (list byte) := (fst (fst e), option_map (fun r => mark (zlen r) ++ r) (snd e)).

(** What is known of an event of the server. *)
Definition good_ev (x : net W) (e : event W unit) : Prop := exists q m w', nth_call (snd x (ev_conn e)) (ev_id e) q /\
  request (xid_of (cl (ev_conn e)) (ev_id e)) (cl_prog (cl (ev_conn e))) (cl_vers (cl (ev_conn e))) q m /\
  ((exists rep, ev_res e = HEnd w' m (Some (mark (zlen rep) ++ rep)) /\ sends (srv (ev_conn e)) (ev_world e) m w' rep) \/
   (ev_res e = HEnd w' m None /\ silent (srv (ev_conn e)) (ev_world e) m w')).

Lemma events_good x : nsteps start x -> chain w0 (c_hist (fst x)) (c_world (fst x)) /\ NoDup (map fst (map entry (c_hist (fst x)))) /\
  forall e, In e (c_hist (fst x)) -> good_ev x e.
Proof.
  intros R. destruct (ninv_all srv regs srv_ok prog cl cl_ok prog_ok h0 w0 x R) as (ms & reps & ins & c' & [N1 N2 N3 N4 N5 N6 N7]).
  destruct x as [c f]. cbn [fst snd] in *. destruct (all_reach tt _ _ _ _ _ N3 N1) as (_ & _ & _ & H). pose proof (h_chain _ _ _ _ H) as C.
  pose proof (hist_nodup srv regs srv_ok _ _ _ N3 _ N1) as ND. rewrite (lk_hist _ _ _ _ N2), ?(lk_world _ _ _ _ N2) in *.
  split; [exact C|]. split; [exact ND|]. intros e He.
  destruct (event_thread srv regs srv_ok _ _ _ N3 _ N1 e) as (req & Hn & _ & Hr); [rewrite (lk_hist _ _ _ _ N2); exact He|].
  rewrite (like_at _ _ _ N2) in Hn. set (i := ev_conn e) in *. destruct (pinv_small srv prog cl _ _ _ _ _ _ (N7 i)) as (Sm & Sr & Sa).
  destruct (reqs_prefix srv h0 w0 ins c' N3 N1 i (ms i) (N4 i) Sm) as (ms' & Em). rewrite (like_at _ _ _ N2) in Em.
  assert (Hm : nth_error (ms i) (ev_id e) = Some req) by (rewrite Em; apply nth_keep; exact Hn).
  destruct (pi_ms _ _ _ _ _ _ _ _ _ (N7 i) _ _ Hm) as (q & Hq & Ha & _). 
  destruct Hr as [(w' & rep & E & Hs)|(w' & E & Hs)]; exists q, req, w'; (split; [exact Hq|]; split; [exact Ha|]); [left; eauto|right; auto].
Qed.

Lemma chain_det (hi : list (event W unit)) : forall w1 w2, chain w0 hi w1 -> chain w0 hi w2 -> w1 = w2.
Proof.
  intros w1 w2 H1 H2. inversion H1 as [|h1 a1 e1 b1 _ _ E1 Eq1]; inversion H2 as [|h2 a2 e2 b2 _ _ E2 Eq2]; subst; auto.
  - destruct h2; discriminate.
  - destruct h1; discriminate.
  - apply app_inj_tail in Eq2. destruct Eq2 as [_ ->]. congruence.
Qed.
Lemma chain_snoc (hi : list (event W unit)) e w : chain w0 (hi ++ [e]) w -> chain w0 hi (ev_world e) /\ world_of (ev_res e) = Some w.
Proof.
  intros H. inversion H as [E|h1 a1 e1 b1 C E1 E2 E]; [destruct hi; discriminate|]. subst.
  apply app_inj_tail in E. destruct E as [-> ->]. auto.
Qed.

Lemma lin_ext x tr hi w : linear w0 tr w -> chain w0 hi w -> map strip tr = map entry hi ->
  forall z, (forall e, In e z -> good_ev x e) -> forall w2, chain w0 (hi ++ z) w2 ->
  exists tr', linear w0 (tr ++ tr') w2 /\ map strip (tr ++ tr') = map entry (hi ++ z) /\
    forall i j q o, In (i, j, q, o) tr' -> nth_call (snd x i) j q.
Proof.
  intros Ht Hc Hm z. induction z as [|e z IH] using rev_ind; intros Hg w2 C.
  - rewrite app_nil_r in C. rewrite (chain_det _ _ _ C Hc). exists []. rewrite !app_nil_r. split; [exact Ht|]. split; [exact Hm|]. intros i j q o [].
  - rewrite app_assoc in C. apply chain_snoc in C. destruct C as [C Ew].
    destruct (IH (fun e0 H => Hg e0 (in_or_app _ _ _ (or_introl H))) _ C) as (tr' & L & M & Q).
    destruct (Hg e ltac:(apply in_or_app; right; left; reflexivity)) as (q & m & w' & Hq & Hr & Hs).
    assert (G : forall o, linear w0 ((tr ++ tr') ++ [(ev_conn e, ev_id e, q, o)]) w2 -> strip (ev_conn e, ev_id e, q, o) = entry e ->
      exists tr', linear w0 (tr ++ tr') w2 /\ map strip (tr ++ tr') = map entry (hi ++ z ++ [e]) /\
        forall i j q o, In (i, j, q, o) tr' -> nth_call (snd x i) j q).
    { intros o Hl He. exists (tr' ++ [(ev_conn e, ev_id e, q, o)]). split; [rewrite app_assoc; exact Hl|]. split.
      - rewrite !app_assoc, map_app, M. cbn [map]. rewrite He. symmetry. apply (map_app entry (hi ++ z) [e]).
      - intros i j q' o' Hin. apply in_app_or in Hin. destruct Hin as [Hin|[Hin|[]]]; [eapply Q; exact Hin|]. injection Hin as <- <- <- _. exact Hq. }
    destruct Hs as [(rep & Er & Hs)|[Er Hs]]; rewrite Er in Ew; cbn in Ew; injection Ew as <-.
    + apply (G (Some rep)); [eapply Ln_reply; eassumption|]. unfold strip, entry. rewrite Er. reflexivity.
    + apply (G None); [eapply Ln_quiet; eassumption|]. unfold strip, entry. rewrite Er. reflexivity.
Qed.

Lemma strip_explains x tr : nsteps start x -> linear w0 tr (c_world (fst x)) -> map strip tr = map entry (c_hist (fst x)) ->
  (forall i j q o, In (i, j, q, o) tr -> nth_call (snd x i) j q) -> explains w0 x tr.
Proof.
  intros R L M Q. destruct (events_good x R) as (_ & ND & _). split; auto.
  - rewrite <- M, map_map in ND. unfold strip in ND. cbn in ND. exact ND.
  - intros i j q v e Hj.
    destruct (ninv_all srv regs srv_ok prog cl cl_ok prog_ok h0 w0 x R) as (ms & reps & ins & c' & [N1 N2 N3 N4 N5 N6 N7]).
    destruct (pi_done _ _ _ _ _ _ _ _ _ (N7 i) _ _ _ _ Hj) as (_ & r & Hr & Ho).
    destruct (pi_reps _ _ _ _ _ _ _ _ _ (N7 i) _ _ Hr) as (Hz & Ht). unfold told in Ht. rewrite <- M in Ht.
    apply in_map_iff in Ht. destruct Ht as ([[[i' j'] q'] o] & E & Hin).
    unfold strip in E. cbn [fst snd] in E. apply pair_equal_spec in E. destruct E as [E1 E2].
    apply pair_equal_spec in E1. destruct E1 as [-> ->]. destruct o as [r'|]; [|discriminate]. cbn [option_map] in E2.
    assert (r' = r) as ->.
    { rewrite <- (mark_record r Hz) in E2. apply mark_inj. f_equal. apply some_inj in E2. exact E2. }
    exists r. split; [|exact Ho]. destruct (Q _ _ _ _ Hin) as [(v' & e' & H)|(H & _)]; [rewrite Hj in H; injection H as <- _ _; exact Hin|].
    assert (j < List.length (p_done (snd x i)))%nat by (apply nth_error_Some; congruence). lia.
Qed.

Lemma nth_call_step x y i j q : nstep srv prog x y -> nth_call (snd x i) j q -> nth_call (snd y i) j q.
Proof.
  intros S H. destruct S; cbn [snd] in *; auto; unfold updp; destruct (Nat.eqb_spec i i0) as [->|]; auto;
    destruct H as [(v0 & e0 & H)|(E & t0 & H)]; try (left; cbn [p_done]; eauto; fail); try congruence.
  - right. split; [exact E|]. cbn [p_th]. assert (q0 = q) by congruence. subst. eauto.
  - left. exists v0, e0. cbn [p_done]. apply nth_keep. exact H.
  - left. cbn [p_done]. assert (q0 = q) by congruence. subst. exists v, e. apply nth_at.
Qed.
Lemma hist_step_net x y : nstep srv prog x y -> exists z, c_hist (fst y) = c_hist (fst x) ++ z.
Proof.
  destruct 1; cbn [fst push c_hist]; try (exists []; rewrite app_nil_r; reflexivity). eapply hist_grows. eassumption.
Qed.
Lemma nsteps_grow x y : nsteps x y -> (exists z, c_hist (fst y) = c_hist (fst x) ++ z) /\
  forall i j q, nth_call (snd x i) j q -> nth_call (snd y i) j q.
Proof.
  induction 1 as [x|x y z R [(z1 & E1) Q] S]; [split; [exists []; rewrite app_nil_r|]; auto|].
  destruct (hist_step_net _ _ S) as (z2 & E2). split; [exists (z1 ++ z2); rewrite E2, E1, app_assoc; reflexivity|].
  intros i j q H. eapply nth_call_step; eauto.
Qed.
Lemma nsteps_trans x y z : nsteps x y -> nsteps y z -> nsteps x z.
Proof. intros H K. revert H. induction K as [|u y z _ IH S]; intros H; [exact H|]. eapply nsteps_snoc; [exact (IH H)|exact S]. Qed.

(** Any two states of one run are explained by one order. *)
Lemma linearizable x y : nsteps start x -> nsteps x y -> exists tr1 tr2, explains w0 x tr1 /\ explains w0 y (tr1 ++ tr2).
Proof.
  intros Rx Rxy. pose proof (nsteps_trans _ _ _ Rx Rxy) as Ry.
  destruct (events_good x Rx) as (Cx & _ & Gx). destruct (events_good y Ry) as (Cy & _ & Gy).
  destruct (lin_ext x [] [] w0 (Ln_nil _ _ w0) (Ch_nil w0) eq_refl (c_hist (fst x)) Gx _ Cx) as (tr1 & L1 & M1 & Q1). cbn [app] in *.
  destruct (nsteps_grow x y Rxy) as ((z & E) & Hgrow). rewrite E in Gy, Cy.
  destruct (lin_ext y tr1 _ _ L1 Cx M1 z (fun e H => Gy e (in_or_app _ _ _ (or_intror H))) _ Cy) as (tr2 & L2 & M2 & Q2).
  exists tr1, tr2. split.
  - apply strip_explains; assumption.
  - apply strip_explains; [exact Ry|exact L2|rewrite M2, E; reflexivity|]. intros i j q o Hin. apply in_app_or in Hin. destruct Hin; eauto.
Qed.

(** The calls a client made are those of its program, with xids counting up; none fails to return for want of
    bytes, none crashes. *)
Lemma program x : nsteps start x -> forall i, p_cl (snd x i) = after (cl i) (List.length (p_done (snd x i)) + match p_th (snd x i) with None | Some (_, TStart _) => 0 | _ => 1 end) /\
  (forall j q v e, nth_error (p_done (snd x i)) j = Some (q, v, e) -> prog i (firstn j (p_done (snd x i))) = Some q) /\
  (forall q t, p_th (snd x i) = Some (q, t) -> prog i (p_done (snd x i)) = Some q /\ t <> TCrash).
Proof.
  intros R i. destruct (ninv_all srv regs srv_ok prog cl cl_ok prog_ok h0 w0 x R) as (ms & reps & ins & c' & [N1 N2 N3 N4 N5 N6 N7]).
  pose proof (N7 i) as [_ _ _ P4 P5]. unfold tinv in P5. split; [|split].
  - destruct (p_th (snd x i)) as [[q t]|]; [|rewrite Nat.add_0_r; tauto]. destruct P5 as (_ & _ & P5).
    destruct t as [q'|q'|q' w|[|] q' k acc|q' b|v e|]; rewrite ?Nat.add_1_r, ?Nat.add_0_r; tauto.
  - intros j q v e H. apply (P4 _ _ _ _ H).
  - intros q t H. rewrite H in P5. destruct P5 as (Hp & _ & P5). split; [exact Hp|]. intros ->. exact P5.
Qed.
End Ok.

(** ** In terms of the user's procedures *)
Variable spec : nat -> nat -> callreq -> W -> W -> E2E.answer -> Prop.
Notation invoked := (invoked spec).
Notation atomic := (atomic spec).
Lemma sends_det i w m w1 r1 w2 r2 : sends (srv i) w m w1 r1 -> sends (srv i) w m w2 r2 -> w1 = w2 /\ r1 = r2.
Proof.
  intros H1 H2. destruct (srv_ok i) as [Hr Hg].
  specialize (H1 _ (logged stream_conn) (mkStream [] EOF [], [])). specialize (H2 _ (logged stream_conn) (mkStream [] EOF [], [])).
  destruct (Handles_det _ _ _ _ _ _ _ _ _ _ _ _ Hr Hg H1 H2) as (E & Ew & _). split; [exact Ew|].
  cbn [logged c_write fst snd stream_conn] in E. apply pair_equal_spec in E. destruct E as [_ E]. apply mark_inj. exact E.
Qed.
Lemma sends_silent i w m w1 r1 w2 : sends (srv i) w m w1 r1 -> silent (srv i) w m w2 -> False.
Proof.
  intros H1 H2. destruct (srv_ok i) as [Hr Hg].
  specialize (H1 _ (logged stream_conn) (mkStream [] EOF [], [])). destruct (H2 _ (logged stream_conn) (mkStream [] EOF [], [])) as (e & H3).
  destruct (Handles_det _ _ _ _ _ _ _ _ _ _ _ _ Hr Hg H1 H3) as (_ & _ & E). discriminate E.
Qed.

(** The reply to a call of a registered procedure carries its answer. *)
Lemma invokes_sends i j q m w w' a : req_ok q -> request (xid_of (cl i) j) (cl_prog (cl i)) (cl_vers (cl i)) q m ->
  E2E.invokes (regs i) (xid_of (cl i) j) (cl_prog (cl i)) (cl_vers (cl i)) q w w' a ->
  exists rep, sends (srv i) w m w' rep /\ zlen m < 2 ^ 31 /\ zlen rep < 2 ^ 31 /\
    forall v e, reply_outcome (xid_of (cl i) j) rep (rq_resp q) v e -> E2E.delivered a v /\ e = None.
Proof.
  intros Hq Hmsg [h E targ tres user x y Hlast Hag Hu Hrecv Hx Hb Hsize1 Hsize2 Hfit]. destruct (srv_ok i) as [Hr Hg].
  set (c := after (cl i) j) in *. pose proof (after_ok cl cl_ok i j) as Hc. fold c in Hc.
  destruct (after_prog cl i j) as [E1 E2]. fold c in E1, E2. unfold xid_of in *. fold c in Hmsg |- *. rewrite <- E1, <- E2 in Hmsg, Hlast.
  destruct (E2E.request_call c q m Hc Hq Hmsg) as (f1 & b1 & f2 & b2 & wargs & Hcall & Hwa).
  pose proof (E2E.received_arg _ _ _ _ _ _ _ Hu Hq Hwa Hrecv) as Harg.
  assert (exists b, res_wire (Some (stub_res E tres y)) b) as [b Hwb].
  { pose proof (stub_runs _ _ _ _ Hu _ _ _ _ _ Harg Hx) as Hrun.
    destruct (u_ok _ _ _ _ Hu) as [_ Hres]. specialize (Hres _ _ _ _ _ Hrun). cbn [res_ok res_wire res_bounded] in *.
    destruct Hres as ((D & HwE & Hwt & Hz) & Hty).
    destruct (c03 D _ _ HwE Hwt _ Hty) as ((b & e & Hb1) & Hb2 & Hb3 & _).
    exists b. apply Hb3. pose proof (proj2 (Hb2 _ _ Hb1) Hb) as ->. exact Hb1. }
  exists (reply_accepted (next_xid c) null_auth 0 ++ b). split; [|split; [|split]].
  - eapply decision_sends; [exact Hcall| |exact Hwb]. destruct (find_ok _ _ _ _ _ _ Hr Hg Hlast) as [Hf Ho].
    eapply D_success; [reflexivity|exact Hf|exact Ho|]. apply Hag. eapply stub_runs; eassumption.
  - apply Hsize1. rewrite <- E1, <- E2. exact Hmsg.
  - specialize (Hsize2 b Hwb). unfold reply_accepted, null_auth, zlen in *. rewrite !app_length, !be4_len. lia.
  - intros v e Ho.
    destruct (E2E.result_delivered _ _ _ _ q _ _ _ _ (next_xid c) b Hu Hq (proj1 (incr_ok _ Hc)) Hx Hwb Hfit) as (v' & Hv & Hdet).
    destruct (Hdet _ _ Ho) as [-> ->]. auto.
Qed.

Hypothesis all_served : served cl regs prog spec.

Variables (h0 : heap) (w0 : W).

Lemma served_calls_ok : calls_ok srv prog cl.
Proof.
  intros i done q Hp. destruct (all_served i done q Hp) as (Hq & He & Hi). split; [exact Hq|]. split; [exact He|].
  intros m Hm. split.
  - destruct (Hi w0) as (w' & a & _ & H). destruct (invokes_sends _ _ _ _ _ _ _ Hq Hm H) as (rep & _ & K & _). exact K.
  - intros w w1 rep Hs. destruct (Hi w) as (w' & a & _ & H). destruct (invokes_sends _ _ _ _ _ _ _ Hq Hm H) as (rep' & Hs' & _ & K & _).
    destruct (sends_det _ _ _ _ _ _ _ Hs Hs') as [_ ->]. exact K.
Qed.

Definition from_prog (e : entry_t) : Prop := let '(i, j, q, _) := e in exists done, prog i done = Some q /\ List.length done = j.
Definition rel (e : entry_t) (ea : nat * nat * callreq * E2E.answer) : Prop :=
  fst e = fst ea /\ exists rep, snd e = Some rep /\ forall v er, reply_outcome (xid_of (cl (fst (fst (fst e)))) (snd (fst (fst e)))) rep (rq_resp (snd (fst e))) v er ->
    E2E.delivered (snd ea) v /\ er = None.

Lemma lin_snoc tr e w : linear w0 (tr ++ [e]) w -> from_prog e -> exists w1 a, linear w0 tr w1 /\
  spec (fst (fst (fst e))) (snd (fst (fst e))) (snd (fst e)) w1 w a /\ rel e (fst e, a).
Proof.
  intros H. inversion H as [E|tr0 w1 i j q m w' rep L Hm Hs E|tr0 w1 i j q m w' L Hm Hs E]; [destruct tr; discriminate| |];
    apply app_inj_tail in E; destruct E as [-> <-]; intros (done & Hp & <-); destruct (all_served i done q Hp) as (Hq & He & Hi); subst;
    destruct (Hi w1) as (w2 & a & Hsp & Ha); destruct (invokes_sends _ _ _ _ _ _ _ Hq Hm Ha) as (rep' & Hs' & _ & _ & Ho).
  - destruct (sends_det _ _ _ _ _ _ _ Hs Hs') as [<- <-]. exists w1, a. split; [exact L|]. split; [exact Hsp|]. split; [reflexivity|]. exists rep. cbn. auto.
  - exfalso. eapply sends_silent; eassumption.
Qed.
Lemma lin_det tr : forall w1 w2, linear w0 tr w1 -> linear w0 tr w2 -> Forall from_prog tr -> w1 = w2.
Proof.
  induction tr as [|e tr IH] using rev_ind; intros w1 w2 H1 H2 F.
  - inversion H1 as [|? ? ? ? ? ? ? ? ? ? ? E|? ? ? ? ? ? ? ? ? ? E]; [|destruct tr; discriminate|destruct tr; discriminate].
    inversion H2 as [|? ? ? ? ? ? ? ? ? ? ? E2|? ? ? ? ? ? ? ? ? ? E2]; [|destruct tr; discriminate|destruct tr; discriminate]. congruence.
  - apply Forall_app in F. destruct F as [F Fe]. inversion Fe; subst.
    inversion H1 as [E|tr0 u1 i j q m w' rep L Hm Hs E|tr0 u1 i j q m w' L Hm Hs E]; [destruct tr; discriminate| |];
    apply app_inj_tail in E; destruct E as [-> <-];
    (inversion H2 as [E|tr1 u2 i2 j2 q2 m2 w2' rep2 L2 Hm2 Hs2 E|tr1 u2 i2 j2 q2 m2 w2' L2 Hm2 Hs2 E]; [destruct tr; discriminate| |]);
    apply app_inj_tail in E; destruct E as [-> E]; try discriminate E; injection E as E; subst;
    pose proof (IH _ _ L L2 F); subst u2;
    destruct H3 as (done & Hp & <-); destruct (all_served i done q Hp) as (Hq & He & Hi);
    pose proof (after_prog cl i (List.length done)) as [E1 E2]; pose proof (after_ok cl cl_ok i (List.length done)) as Hc;
    unfold xid_of in Hm, Hm2; rewrite <- E1, <- E2 in Hm, Hm2;
    rewrite (req_unique (incr_xid (after (cl i) (List.length done))) q m2 m (incr_ok _ Hc) Hq Hm2 Hm) in Hs2.
    + apply (sends_det _ _ _ _ _ _ _ Hs Hs2).
    + exfalso. destruct (Hi u1) as (w3 & a & _ & Ha). 
      destruct (invokes_sends i (List.length done) q m u1 w3 a Hq) as (rep' & Hs' & _); [unfold xid_of; rewrite <- E1, <- E2; exact Hm|exact Ha|]. eapply sends_silent; eassumption.
Qed.
Lemma lin_inv tr ta w : linear w0 tr w -> invoked w0 ta w -> Forall2 rel tr ta -> Forall from_prog tr ->
  forall tr2 w2, linear w0 (tr ++ tr2) w2 -> Forall from_prog tr2 ->
  exists ta2, invoked w0 (ta ++ ta2) w2 /\ Forall2 rel (tr ++ tr2) (ta ++ ta2).
Proof.
  intros L I F P tr2. induction tr2 as [|e tr2 IH] using rev_ind; intros w2 L2 P2.
  - exists []. rewrite !app_nil_r in *. rewrite (lin_det tr w2 w L2 L P). auto.
  - apply Forall_app in P2. destruct P2 as [P2 Pe]. inversion Pe; subst. rewrite app_assoc in L2.
    destruct (lin_snoc _ _ _ L2 H1) as (w1 & a & L1 & Hi & Hrel). destruct (IH w1 L1 P2) as (ta2 & I2 & F2).
    exists (ta2 ++ [(fst e, a)]). split.
    + rewrite app_assoc. destruct e as [[[i j] q] o]. cbn [fst snd] in *. eapply Iv_call; eassumption.
    + rewrite !app_assoc. apply Forall2_app; [exact F2|]. constructor; [exact Hrel|constructor].
Qed.

Lemma rel_keys tr ta : Forall2 rel tr ta -> map (fun e : entry_t => fst (fst e)) tr = map (fun e : nat * nat * callreq * E2E.answer => fst (fst e)) ta.
Proof. induction 1 as [|e ea tr ta [E _] _ IH]; [reflexivity|]. cbn [map]. rewrite IH, E. reflexivity. Qed.
Lemma rel_in_r tr ta : Forall2 rel tr ta -> forall k a, In (k, a) ta -> exists o, In (k, o) tr.
Proof.
  induction 1 as [|e ea tr ta [E _] _ IH]; intros k a H; [destruct H|]. destruct H as [->|H].
  - destruct e as [k' o]. cbn in E. subst. exists o. left. reflexivity.
  - destruct (IH k a H) as (o & K). exists o. right. exact K.
Qed.
Lemma rel_in_l tr ta : Forall2 rel tr ta -> forall k rep, In (k, Some rep) tr -> exists a, In (k, a) ta /\
  forall v er, reply_outcome (xid_of (cl (fst (fst k))) (snd (fst k))) rep (rq_resp (snd k)) v er -> E2E.delivered a v /\ er = None.
Proof.
  induction 1 as [|e ea tr ta [E (rep' & Er & Ho)] _ IH]; intros k rep H; [destruct H|]. destruct H as [->|H].
  - destruct ea as [k' a]. cbn in E, Er, Ho. subst k'. injection Er as <-. exists a. split; [left; reflexivity|exact Ho].
  - destruct (IH k rep H) as (a & K & K'). exists a. split; [right; exact K|exact K'].
Qed.
Lemma explains_atomic x tr ta : explains w0 x tr -> invoked w0 ta (c_world (fst x)) -> Forall2 rel tr ta -> atomic w0 x ta.
Proof.
  intros [E1 E2 E3 E4] I F. split; [exact I| | |].
  - rewrite <- (rel_keys _ _ F). exact E2.
  - intros i j q a Hin. destruct (rel_in_r _ _ F _ _ Hin) as (o & Ho). eapply E3. exact Ho.
  - intros i j q v e Hj. destruct (E4 _ _ _ _ _ Hj) as (rep & Hin & Ho). destruct (rel_in_l _ _ F _ _ Hin) as (a & Ha & Hd).
    cbn [fst snd] in Hd. destruct (Hd _ _ Ho) as [Hd1 Hd2]. eauto.
Qed.
Lemma from_prog_all x tr : nsteps srv prog (ninit h0 w0 cl) x -> explains w0 x tr -> Forall from_prog tr.
Proof.
  intros R [_ _ E _]. apply Forall_forall. intros [[[i j] q] o] Hin. cbn.
  destruct (program served_calls_ok h0 w0 x R i) as (_ & P1 & P2). destruct (E _ _ _ _ Hin) as [(v & e & Hj)|(-> & t & Ht)].
  - exists (firstn j (p_done (snd x i))). split; [eapply P1; exact Hj|]. apply firstn_length_le.
    assert (j < List.length (p_done (snd x i)))%nat by (apply nth_error_Some; congruence). lia.
  - exists (p_done (snd x i)). split; [apply (P2 _ _ Ht)|reflexivity].
Qed.

(** As if each call were executed at one moment between its start and its return. *)
Lemma atomic_calls x y : nsteps srv prog (ninit h0 w0 cl) x -> nsteps srv prog x y ->
  exists tr1 tr2, atomic w0 x tr1 /\ atomic w0 y (tr1 ++ tr2).
Proof.
  intros Rx Rxy. destruct (linearizable served_calls_ok h0 w0 x y Rx Rxy) as (t1 & t2 & Hx & Hy).
  pose proof (from_prog_all _ _ Rx Hx) as P1. pose proof (from_prog_all _ _ (nsteps_trans _ _ _ Rx Rxy) Hy) as P2.
  apply Forall_app in P2. destruct P2 as [_ P2].
  destruct (lin_inv [] [] w0 (Ln_nil _ _ w0) (Iv_nil _ w0) ltac:(constructor) ltac:(constructor) t1 _ (ex_world _ _ _ _ _ Hx) P1) as (a1 & I1 & F1). cbn [app] in *.
  destruct (lin_inv t1 a1 _ (ex_world _ _ _ _ _ Hx) I1 F1 P1 t2 _ (ex_world _ _ _ _ _ Hy) P2) as (a2 & I2 & F2).
  exists a1, a2. split; eapply explains_atomic; eassumption.
Qed.
End Lin.
