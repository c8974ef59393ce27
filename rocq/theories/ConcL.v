(** The server as a concurrent program: every schedule comes to an end, and what holds then. *)
From Coq Require Import Permutation.
From Verif Require Import Bytes XdrLib Types Interp RpcTypes Io Client Server ServSpec Heap HeapP HeapQ Conc ConcP ConcQ ConcR.
Open Scope string_scope.
Open Scope Z_scope.
Open Scope list_scope.

Section Live.
Context {W L : Type}.
Variable linit : L.
Variable hstep : nat -> list byte -> W -> L -> hresult W L -> Prop.
(** An action in which only the readers of connections below [K] take part (handlers may be of any). *)
Definition act (K : nat) (c c' : cfg W L) : Prop :=
  step linit hstep c c' /\ forall i, (K <= i)%nat -> k_rd (c_conns c' i) = k_rd (c_conns c i).
(** [n] actions. *)
Inductive sched (K : nat) : nat -> cfg W L -> cfg W L -> Prop :=
| sched_0 c : sched K 0 c c
| sched_S n c1 c2 c3 : sched K n c1 c2 -> act K c2 c3 -> sched K (S n) c1 c3.
Lemma sched_steps K n c c' : sched K n c c' -> steps linit hstep c c'.
Proof. induction 1; [constructor|]. destruct H0. econstructor; eassumption. Qed.

(** A bound on what is still to come: handlers take finitely many actions. *)
Variable hm : L -> nat.
Hypothesis Hm : forall i own w l w' o l', hstep i own w l (HMore w' o l') -> (hm l' < hm l)%nat.
Definition wA : nat := hm linit + 6.
Definition wt (t : task L) : nat := match tk_ph t with TRun l => hm l + 4 | TWrite _ => 3 | TPut => 2 end.
Definition wr (r : reader) : nat := match r with RHdr acc => wA * List.length acc + 1 | RBody _ _ => wA | RDone _ => 0 end.
Definition wk (k : kconn) : nat := wr (k_rd k) + (wA + 1) * List.length (List.concat (si_in (k_in k))).
Definition sum (l : list nat) : nat := fold_right Nat.add 0%nat l.
Definition wc (K : nat) (c : cfg W L) : nat :=
  (if c_crashed c then 0 else 1) + List.length (c_pool c) + sum (map wt (c_tasks c)) + sum (map (fun i => wk (c_conns c i)) (seq 0 K)).
Lemma sum_app a b : sum (a ++ b) = (sum a + sum b)%nat.
Proof. induction a as [|x a IH]; [reflexivity|]. cbn [app sum fold_right] in *. unfold sum in *. cbn. rewrite IH. lia. Qed.
Lemma sum_upd f i k K : forall s, (s <= i < s + K)%nat ->
  (sum (map (fun j => wk (updk f i k j)) (seq s K)) + wk (f i) = sum (map (fun j => wk (f j)) (seq s K)) + wk k)%nat.
Proof.
  assert (Z : forall K s, (i < s)%nat -> sum (map (fun j => wk (updk f i k j)) (seq s K)) = sum (map (fun j => wk (f j)) (seq s K))).
  { clear K. induction K as [|K IH]; intros s Hs; [reflexivity|]. cbn [seq map sum fold_right]. fold (sum (map (fun j => wk (updk f i k j)) (seq (S s) K))). fold (sum (map (fun j => wk (f j)) (seq (S s) K))).
    rewrite IH by lia. unfold updk. destruct (Nat.eqb_spec s i); [lia|reflexivity]. }
  induction K as [|K IH]; intros s Hs; [lia|]. cbn [seq map sum fold_right]. fold (sum (map (fun j => wk (updk f i k j)) (seq (S s) K))). fold (sum (map (fun j => wk (f j)) (seq (S s) K))).
  unfold updk at 1. destruct (Nat.eqb_spec s i) as [->|N].
  - rewrite Z by lia. lia.
  - specialize (IH (S s) ltac:(lia)). lia.
Qed.
Lemma sr_some s k s' d : chunks_ok (si_in s) -> (0 < k)%nat -> stream_read s k = (s', d, None) -> (0 < List.length d)%nat.
Proof.
  intros Hc Hk H. unfold stream_read in H. destruct (si_in s) as [|c cs]; [discriminate|]. inversion Hc as [|? ? Hn _]; subst.
  destruct (Nat.leb _ _); injection H as _ <-; [|rewrite firstn_length]; destruct c; cbn; [congruence|lia|congruence|lia].
Qed.
Lemma get_pool p h n p' h' b : get_buf p h n p' h' b -> (List.length p' <= List.length p)%nat.
Proof. destruct 1; subst; rewrite ?app_length; cbn; lia. Qed.
Lemma sum_tasks t1 t t2 : sum (map wt (t1 ++ t :: t2)) = (sum (map wt t1) + wt t + sum (map wt t2))%nat.
Proof. rewrite map_app, sum_app. cbn [map sum fold_right]. fold (sum (map wt t2)). lia. Qed.
Definition chunked (c : cfg W L) : Prop := forall i, chunks_ok (si_in (k_in (c_conns c i))).

Section Dec.
Variable K : nat.
Lemma conn_dec h p p' f ts ts' w w' hi h' hi' i k : (forall j, (K <= j)%nat -> k_rd (updk f i k j) = k_rd (f j)) -> k_rd k <> k_rd (f i) ->
  (wk k + List.length p' + sum (map wt ts') < wk (f i) + List.length p + sum (map wt ts))%nat ->
  (wc K (mkC h' p' (updk f i k) ts' w' false hi') < wc K (mkC h p f ts w false hi))%nat.
Proof.
  intros Hj Hn Hd. assert (i < K)%nat as Hi. { destruct (Nat.lt_ge_cases i K) as [Q|Q]; [exact Q|]. specialize (Hj i Q). unfold updk in Hj. rewrite Nat.eqb_refl in Hj. congruence. }
  unfold wc. cbn [c_crashed c_pool c_tasks c_conns]. pose proof (sum_upd f i k K 0 ltac:(lia)). lia.
Qed.
Lemma conn_same f i k : k_rd k = k_rd (f i) -> k_in k = k_in (f i) -> forall s n, sum (map (fun j => wk (updk f i k j)) (seq s n)) = sum (map (fun j => wk (f j)) (seq s n)).
Proof.
  intros H1 H2 s n. f_equal. apply map_ext. intros j. unfold updk. destruct (Nat.eqb_spec j i) as [->|]; [|reflexivity]. unfold wk. rewrite H1, H2. reflexivity.
Qed.
Lemma act_dec c c' : chunked c -> act K c c' -> (wc K c' < wc K c)%nat.
Proof.
  intros Hc [H Hj]. unfold chunked in Hc. destruct H; cbn [c_conns] in Hc, Hj.
  - assert (0 < List.length d)%nat by (eapply sr_some; [exact (Hc i)| |exact H1]; lia). destruct (sr_ok _ _ _ _ (Hc i) H1) as [_ Q]. apply (f_equal (@List.length _)) in Q. rewrite app_length in Q. cbn [c_conns] in Q.
    apply conn_dec; [exact Hj| |].
    + cbn [with_rd k_rd]. rewrite H. intros X. injection X as X. apply (f_equal (@List.length _)) in X. rewrite app_length in X. lia.
    + unfold wk. cbn [with_rd k_rd k_in]. rewrite H, Q. cbn [wr]. rewrite app_length. lia.
  - apply conn_dec; [exact Hj|cbn [with_rd k_rd]; congruence|]. apply sr_err in H1. destruct H1 as (_ & _ & ->). unfold wk. cbn [with_rd k_rd k_in]. rewrite H. cbn [wr]. lia.
  - apply conn_dec; [exact Hj|cbn [with_rd k_rd]; congruence|]. unfold wk. cbn [with_rd k_rd k_in]. rewrite H. cbn [wr]. lia.
  - apply conn_dec; [exact Hj|cbn [with_rd k_rd]; congruence|]. apply get_pool in H2. unfold wk. cbn [with_rd k_rd k_in]. rewrite H. cbn [wr]. rewrite H0. unfold wA. lia.
  - assert (0 < List.length d)%nat by (eapply sr_some; [exact (Hc i)| |exact H1]; lia). destruct (sr_ok _ _ _ _ (Hc i) H1) as [_ Q]. apply (f_equal (@List.length _)) in Q. rewrite app_length in Q. cbn [c_conns] in Q.
    apply conn_dec; [exact Hj| |].
    + cbn [with_rd k_rd]. rewrite H. intros X. injection X as X. apply (f_equal (@List.length _)) in X. rewrite app_length in X. lia.
    + unfold wk. cbn [with_rd k_rd k_in]. rewrite H, Q. cbn [wr]. lia.
  - apply conn_dec; [exact Hj|cbn [with_rd k_rd]; congruence|]. apply sr_err in H1. destruct H1 as (_ & _ & ->). unfold wk. cbn [with_rd k_rd k_in]. rewrite H. cbn [wr]. unfold wA. lia.
  - apply conn_dec; [exact Hj|cbn [k_rd]; congruence|]. rewrite sum_tasks. unfold wk. cbn [k_rd k_in map sum fold_right wt tk_ph]. rewrite H. cbn [wr List.length]. unfold wA. lia.
  - apply Hm in H. unfold wc. cbn [c_crashed c_pool c_tasks c_conns]. rewrite !sum_tasks. cbn [wt tk_ph]. lia.
  - unfold wc. cbn [c_crashed c_pool c_tasks c_conns]. rewrite !sum_tasks. cbn [wt tk_ph]. lia.
  - unfold wc. cbn [c_crashed c_pool c_tasks c_conns]. rewrite !sum_tasks, conn_same by reflexivity. cbn [wt tk_ph]. lia.
  - unfold wc. cbn [c_crashed c_pool c_tasks c_conns]. lia.
  - unfold wc. cbn [c_crashed c_pool c_tasks c_conns]. rewrite !sum_tasks, conn_same by reflexivity. cbn [wt tk_ph]. lia.
  - unfold wc. cbn [c_crashed c_pool c_tasks c_conns]. rewrite !sum_tasks, conn_same by reflexivity. cbn [wt tk_ph]. lia.
  - unfold wc. cbn [c_crashed c_pool c_tasks c_conns]. rewrite sum_tasks, map_app, sum_app. cbn [wt tk_ph List.length]. lia.
  - unfold wc. cbn [c_crashed c_pool c_tasks c_conns]. rewrite !app_length. cbn [List.length]. lia.
Qed.
End Dec.

Section Run.
Variables (h0 : heap) (ins : nat -> list (list byte) * ioerr) (w0 : W).
Hypothesis ins_ok : forall i, chunks_ok (fst (ins i)).
Notation start := (init h0 ins w0).
Lemma reach_chunked c : steps linit hstep start c -> chunked c.
Proof. intros R i. destruct (all_reach linit hstep h0 ins w0 c ins_ok R) as (_ & Hk & _ & _). exact (proj1 (Hk i)). Qed.
(** The input of connections 0 .. K-1, in bytes. *)
Definition input_bytes (K : nat) : nat := sum (map (fun i => List.length (List.concat (fst (ins i)))) (seq 0 K)).
Lemma start_sum K : forall s, sum (map (fun i => wk (kinit (fst (ins i)) (snd (ins i)))) (seq s K)) = (K + (wA + 1) * sum (map (fun i => List.length (List.concat (fst (ins i)))) (seq s K)))%nat.
Proof.
  induction K as [|K IH]; intros s; [cbn; lia|]. specialize (IH (S s)). unfold sum in *. cbn [seq map fold_right]. rewrite IH.
  unfold wk. cbn [kinit k_rd k_in si_in wr List.length]. rewrite Nat.mul_add_distr_l. lia.
Qed.
Lemma start_wc K : wc K start = (1 + K + (wA + 1) * input_bytes K)%nat.
Proof. unfold wc, init, input_bytes. cbn [c_crashed c_pool c_tasks c_conns List.length map]. rewrite start_sum. cbn [sum fold_right]. lia. Qed.
Lemma sched_bound K n c : sched K n start c -> (n + wc K c <= wc K start)%nat.
Proof.
  remember start as c0 eqn:E. induction 1 as [c|n c1 c2 c3 S IH A]; [lia|]. subst c1. specialize (IH eq_refl). pose proof (act_dec K c2 c3 (reach_chunked _ (sched_steps _ _ _ _ S)) A). lia.
Qed.
Lemma sched_finite K n c : sched K n start c -> (n <= 1 + K + (hm linit + 7) * input_bytes K)%nat.
Proof. intros H. apply sched_bound in H. rewrite start_wc in H. unfold wA in H. replace (hm linit + 7)%nat with (hm linit + 6 + 1)%nat by lia. lia. Qed.

(** Handlers are never stuck and leave a buffer of the same length. *)
Hypothesis Hh : forall i own w l, exists r, hstep i own w l r /\
  match r with HMore _ o _ | HEnd _ o _ => List.length o = List.length own | HPanic => True end.
(** Nothing is left to do on the first [K] connections. *)
Definition ended (K : nat) (c : cfg W L) : Prop := c_tasks c = [] /\ forall i, (i < K)%nat -> exists e, k_rd (c_conns c i) = RDone e.
(** The pool aside, nothing changes from [c] to [c']. *)
Definition still (c c' : cfg W L) : Prop :=
  c_tasks c' = c_tasks c /\ c_crashed c' = c_crashed c /\ forall i, k_rd (c_conns c' i) = k_rd (c_conns c i).
Lemma updk_other f i k j : j <> i -> updk f i k j = f j.
Proof. intros N. unfold updk. destruct (Nat.eqb_spec j i); [contradiction|reflexivity]. Qed.
Lemma mid_inj {A} (a b : A) l1 l2 : l1 ++ a :: l2 = l1 ++ b :: l2 -> a = b.
Proof. intros H. apply app_inv_head in H. congruence. Qed.
Lemma task_moves c : steps linit hstep start c -> c_crashed c = false -> c_tasks c <> [] -> exists c', (forall K, act K c c') /\ ~ still c c'.
Proof.
  intros R Hc Ht. destruct (all_reach linit hstep h0 ins w0 c ins_ok R) as (B & _ & _ & _). destruct c as [h p f ts w cr hi]. cbn [c_crashed c_tasks] in *. subst cr.
  destruct ts as [|[i k b o ph] ts]; [congruence|]. destruct B as [_ B _ _ _]. cbn [c_tasks c_heap] in B. inversion B as [|? ? [Hv _] _]; subst. cbn [tk_buf] in Hv.
  pose proof (fun x => @mid_inj (task L) x (mkT i k b o ph) [] ts) as MI. cbn [app] in MI.
  destruct ph as [l|r|].
  - destruct (Hh i (sread h b) w l) as ([|w' o' l'|w' o' [r|]] & H1 & H2).
    + eexists. split; [intros K; split; [exact (S_panic _ _ h p f [] i k b o l ts w hi H1)|reflexivity]|]. intros (_ & X & _). discriminate X.
    + rewrite (sread_len _ _ Hv) in H2. eexists. split; [intros K; split; [exact (S_more _ _ h p f [] i k b o l ts w hi w' o' l' H1 H2)|reflexivity]|].
      intros (X & _). cbn [c_tasks] in X. apply MI in X. injection X as _ X. apply Hm in H1. rewrite X in H1. lia.
    + rewrite (sread_len _ _ Hv) in H2. eexists. split; [intros K; split; [exact (S_end _ _ h p f [] i k b o l ts w hi w' o' r H1 H2)|reflexivity]|].
      intros (X & _). cbn [c_tasks] in X. apply MI in X. discriminate X.
    + rewrite (sread_len _ _ Hv) in H2. eexists. split; [intros K; split; [exact (S_quiet _ _ h p f [] i k b o l ts w hi w' o' H1 H2)|intros j _; cbn [c_conns]; unfold updk; destruct (Nat.eqb_spec j i) as [->|]; reflexivity]|].
      intros (X & _). cbn [c_tasks] in X. apply MI in X. discriminate X.
  - destruct (k_broken (f i)) eqn:Eb.
    + eexists. split; [intros K; split; [apply (S_write_err linit hstep h p f [] i k b o r ts w hi []); [exists r; reflexivity|auto]|intros j _; cbn [c_conns]; unfold updk; destruct (Nat.eqb_spec j i) as [->|]; reflexivity]|].
      intros (X & _). cbn [c_tasks] in X. apply MI in X. discriminate X.
    + eexists. split; [intros K; split; [exact (S_write linit hstep h p f [] i k b o r ts w hi Eb)|intros j _; cbn [c_conns]; unfold updk; destruct (Nat.eqb_spec j i) as [->|]; reflexivity]|].
      intros (X & _). cbn [c_tasks] in X. apply MI in X. discriminate X.
  - eexists. split; [intros K; split; [exact (S_put linit hstep h p f [] i k b o ts w hi)|reflexivity]|].
    intros (X & _). cbn [c_tasks app] in X. apply (f_equal (@List.length _)) in X. cbn in X. lia.
Qed.
Lemma reader_moves c i : steps linit hstep start c -> c_crashed c = false -> (forall e, k_rd (c_conns c i) <> RDone e) -> exists c', (forall K, (i < K)%nat -> act K c c') /\ ~ still c c'.
Proof.
  intros R Hc Hd. destruct (all_reach linit hstep h0 ins w0 c ins_ok R) as (_ & Hk & _ & _). specialize (Hk i). destruct Hk as (Hck & _ & Hk). destruct c as [h p f ts w cr hi]. cbn [c_crashed c_conns] in *. subst cr.
  assert (X : forall kk h' p' ts', step linit hstep (mkC h p f ts w false hi) (mkC h' p' (updk f i kk) ts' w false hi) -> k_rd kk <> k_rd (f i) ->
    exists c', (forall K, (i < K)%nat -> act K (mkC h p f ts w false hi) c') /\ ~ still (mkC h p f ts w false hi) c').
  { intros kk h' p' ts' S N. eexists. split; [intros K HK; split; [exact S|]|].
    - intros j Hj. cbn [c_conns]. rewrite updk_other by lia. reflexivity.
    - intros (_ & _ & Q). specialize (Q i). cbn [c_conns] in Q. unfold updk in Q. rewrite Nat.eqb_refl in Q. exact (N Q). }
  destruct (k_rd (f i)) as [acc|b acc|e] eqn:Er; [| |exfalso; exact (Hd e eq_refl)].
  - destruct Hk as [Hl _]. destruct (Nat.eq_dec (List.length acc) 4) as [H4|H4].
    + destruct (Z.eq_dec (Z.land (get_u32 acc) (2 ^ 31)) 0) as [E|E].
      * eapply X; [eapply S_frag; eassumption|discriminate].
      * eapply X; [eapply S_get; try eassumption; apply G_nil|discriminate].
    + destruct (stream_read (k_in (f i)) (4 - List.length acc)) as [[s d] [e|]] eqn:Es.
      * eapply X; [eapply S_hdr_err; try eassumption; lia|discriminate].
      * eapply X; [eapply S_hdr; try eassumption; lia|]. cbn [with_rd k_rd]. intros Q. injection Q as Q. apply sr_some in Es; [|exact Hck|lia].
        apply (f_equal (@List.length _)) in Q. rewrite app_length in Q. lia.
  - destruct Hk as [Hl _]. destruct (Nat.eq_dec (List.length acc) (sl_len b)) as [H4|H4].
    + eapply X; [eapply S_go; eassumption|discriminate].
    + destruct (stream_read (k_in (f i)) (sl_len b - List.length acc)) as [[s d] [e|]] eqn:Es.
      * eapply X; [eapply S_body_err; try eassumption; lia|discriminate].
      * eapply X; [eapply S_body; try eassumption; lia|]. cbn [with_rd k_rd]. intros Q. injection Q as Q. apply sr_some in Es; [|exact Hck|lia].
        apply (f_equal (@List.length _)) in Q. rewrite app_length in Q. lia.
Qed.
Lemma moves_or_ended K c : steps linit hstep start c -> c_crashed c = false -> ended K c \/ exists c', act K c c' /\ ~ still c c'.
Proof.
  intros R Hc. destruct (c_tasks c) as [|t ts] eqn:Et.
  - assert ((forall i, (i < K)%nat -> exists e, k_rd (c_conns c i) = RDone e) \/ exists i, (i < K)%nat /\ forall e, k_rd (c_conns c i) <> RDone e) as [D|(i & Hi & D)].
    { clear -K. induction K as [|n IH]; [left; intros i Hi; lia|]. destruct IH as [IH|(i & Hi & D)]; [|right; exists i; split; [lia|exact D]].
      destruct (k_rd (c_conns c n)) as [a|a b|e] eqn:E; [right; exists n; split; [lia|congruence]|right; exists n; split; [lia|congruence]|].
      left. intros i Hi. destruct (Nat.eq_dec i n) as [->|]; [exists e; exact E|apply IH; lia]. }
    + left. split; assumption.
    + right. destruct (reader_moves c i R Hc D) as (c' & A & N). exists c'. split; [exact (A K Hi)|exact N].
  - right. destruct (task_moves c R Hc) as (c' & A & N); [congruence|]. exists c'. split; [exact (A K)|exact N].
Qed.
(** A schedule that cannot be continued, or only by the pool losing buffers, has come to the end. *)
Lemma stuck_ended K n c : sched K n start c -> (forall c', act K c c' -> still c c') -> c_crashed c = false -> ended K c.
Proof.
  intros S Q Hc. destruct (moves_or_ended K c (sched_steps _ _ _ _ S) Hc) as [E|(c' & A & N)]; [exact E|]. exfalso. exact (N (Q c' A)).
Qed.
(** Every schedule can be continued to the end. *)
Lemma to_the_end K n c : sched K n start c -> exists m c', sched K m start c' /\ (n <= m)%nat /\ (c_crashed c' = true \/ ended K c').
Proof.
  intros S. pose proof (sched_bound K n c S) as B. remember (wc K start - n)%nat as d eqn:Ed. revert n c S B Ed. induction d as [d IH] using lt_wf_ind. intros n c S B Ed.
  destruct (c_crashed c) eqn:Cr; [exists n, c; auto|]. destruct (moves_or_ended K c (sched_steps _ _ _ _ S) Cr) as [E|(c' & A & _)]; [exists n, c; auto|].
  pose proof (sched_S _ _ _ _ _ S A) as S'. pose proof (sched_bound K _ _ S') as B'. pose proof (act_dec K c c' (reach_chunked _ (sched_steps _ _ _ _ S)) A).
  destruct (IH (wc K start - Datatypes.S n)%nat ltac:(lia) _ _ S' B' eq_refl) as (m & c2 & S2 & L2 & E2). exists m, c2. split; [exact S2|]. split; [lia|exact E2].
Qed.
End Run.
End Live.
