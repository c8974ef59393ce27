(** The server's side of Net.v is Conc.v on the input sent so far. *)
From Coq Require Import Permutation.
From Verif Require Import Bytes XdrLib Types Interp Spec Meta Runs RpcTypes RpcSpec RpcWire RpcDec Io Client CallSpec ClientP CliConc
  Server ServSpec ServerP ServerQ ServerX Heap HeapP HeapQ Conc ConcP ConcQ ConcR Net.
Open Scope string_scope.
Open Scope Z_scope.
Open Scope list_scope.

Section Push.
Context {W L : Type}.
Variable linit : L.
Variable hstep : nat -> list byte -> W -> L -> hresult W L -> Prop.
Notation step := (step linit hstep).
Notation steps := (steps linit hstep).

(** The same configuration, with more input on one connection (or on none). *)
Definition pushk (o : option nat) (ds : list (list byte)) (j : nat) (k : kconn) : kconn :=
  match o with Some i => if Nat.eqb j i then kpush ds k else k | None => k end.
Record like (o : option nat) (ds : list (list byte)) (c c' : cfg W L) : Prop := mkLike {
  lk_heap : c_heap c' = c_heap c; lk_pool : c_pool c' = c_pool c; lk_tasks : c_tasks c' = c_tasks c;
  lk_world : c_world c' = c_world c; lk_crashed : c_crashed c' = c_crashed c; lk_hist : c_hist c' = c_hist c;
  lk_conns : forall j, c_conns c' j = pushk o ds j (c_conns c j) }.

Lemma pushk_rd o ds j k : k_rd (pushk o ds j k) = k_rd k.
Proof. unfold pushk. destruct o as [i|]; [destruct (Nat.eqb j i)|]; reflexivity. Qed.
Lemma pushk_fields o ds j k : k_out (pushk o ds j k) = k_out k /\ k_part (pushk o ds j k) = k_part k /\
  k_broken (pushk o ds j k) = k_broken k /\ k_reqs (pushk o ds j k) = k_reqs k /\ k_quiet (pushk o ds j k) = k_quiet k /\
  k_fail (pushk o ds j k) = k_fail k.
Proof. unfold pushk. destruct o as [i|]; [destruct (Nat.eqb j i)|]; auto 10. Qed.

Lemma stream_read_push ds s k s' d : stream_read s k = (s', d, None) ->
  stream_read (mkStream (si_in s ++ ds) (si_end s) (si_out s)) k =
    (mkStream (si_in s' ++ ds) (si_end s') (si_out s'), d, None).
Proof.
  unfold stream_read. destruct s as [[|c cs] en out]; cbn [si_in si_end si_out app]; [discriminate|].
  destruct (Nat.leb _ _); intros H; injection H as <- <-; reflexivity.
Qed.

Lemma pushk_read o ds j k n s' d r : stream_read (k_in k) n = (s', d, None) ->
  exists s2, stream_read (k_in (pushk o ds j k)) n = (s2, d, None) /\
    with_rd (pushk o ds j k) s2 r = pushk o ds j (with_rd k s' r).
Proof.
  intros H. unfold pushk. destruct o as [i|]; [destruct (Nat.eqb j i)|].
  - eexists. split; [cbn [kpush k_in]; apply stream_read_push; exact H|]. destruct s'; reflexivity.
  - exists s'. auto.
  - exists s'. auto.
Qed.
Lemma pushk_read_err o ds j k n s' d e : stream_read (k_in k) n = (s', d, Some e) ->
  (forall i, o = Some i -> j <> i) -> stream_read (k_in (pushk o ds j k)) n = (s', d, Some e) /\ pushk o ds j k = k.
Proof.
  intros H Hn. unfold pushk. destruct o as [i|]; [destruct (Nat.eqb_spec j i) as [E|]|]; auto. exfalso. exact (Hn i eq_refl E).
Qed.

Lemma like_upd o ds f f' i k k' : (forall j, f' j = pushk o ds j (f j)) -> k' = pushk o ds i k ->
  forall j, updk f' i k' j = pushk o ds j (updk f i k j).
Proof. intros H E j. unfold updk. destruct (Nat.eqb_spec j i) as [->|]; auto. Qed.

Lemma like_step o ds c1 c1' c2 : like o ds c1 c1' -> step c1 c2 ->
  (forall i e, o = Some i -> k_rd (c_conns c2 i) <> RDone (RIo e)) ->
  exists c2', step c1' c2' /\ like o ds c2 c2'.
Proof.
  intros K S Hn. destruct c1' as [h' p' f' ts' w' cr' hi']. destruct K as [K1 K2 K3 K4 K5 K6 K7].
  destruct S; cbn [c_heap c_pool c_conns c_tasks c_world c_crashed c_hist] in *; subst.
  - destruct (pushk_read o ds i (f i) _ _ _ (RHdr (acc ++ d)) H1) as (s2 & R & E).
    eexists. split; [eapply (S_hdr linit hstep) with (i := i) (acc := acc) (s := s2) (d := d); rewrite ?K7, ?pushk_rd; assumption|].
    split; auto. cbn [c_conns]. apply like_upd; [exact K7|]. rewrite K7. exact E.
  - assert (Hx : forall j, o = Some j -> i <> j).
    { intros j Ej <-. apply (Hn i (short_err (acc ++ d) e) Ej). rewrite updk_at. reflexivity. }
    destruct (pushk_read_err o ds i (f i) _ _ _ _ H1 Hx) as [R E].
    eexists. split; [eapply (S_hdr_err linit hstep) with (i := i) (acc := acc) (s := s) (d := d) (e := e); rewrite ?K7, ?pushk_rd; assumption|].
    split; auto. cbn [c_conns]. apply like_upd; [exact K7|]. rewrite K7, E.
    unfold pushk. destruct o as [j|]; [|reflexivity]. destruct (Nat.eqb_spec i j) as [Ej|]; [|reflexivity]. exfalso. exact (Hx j eq_refl Ej).
  - eexists. split; [eapply (S_frag linit hstep) with (i := i) (acc := acc); rewrite ?K7, ?pushk_rd; assumption|].
    split; auto. cbn [c_conns]. apply like_upd; [exact K7|]. rewrite K7. unfold pushk. destruct o as [j|]; [destruct (Nat.eqb i j)|]; reflexivity.
  - eexists. split; [eapply (S_get linit hstep) with (i := i) (acc := acc); rewrite ?K7, ?pushk_rd; eassumption|].
    split; auto. cbn [c_conns]. apply like_upd; [exact K7|]. rewrite K7. unfold pushk. destruct o as [j|]; [destruct (Nat.eqb i j)|]; reflexivity.
  - destruct (pushk_read o ds i (f i) _ _ _ (RBody b (acc ++ d)) H1) as (s2 & R & E).
    eexists. split; [eapply (S_body linit hstep) with (i := i) (b := b) (acc := acc) (s := s2) (d := d); rewrite ?K7, ?pushk_rd; assumption|].
    split; auto. cbn [c_conns]. apply like_upd; [exact K7|]. rewrite K7. exact E.
  - assert (Hx : forall j, o = Some j -> i <> j).
    { intros j Ej <-. apply (Hn i (short_err (acc ++ d) e) Ej). rewrite updk_at. reflexivity. }
    destruct (pushk_read_err o ds i (f i) _ _ _ _ H1 Hx) as [R E].
    eexists. split; [eapply (S_body_err linit hstep) with (i := i) (b := b) (acc := acc) (s := s) (d := d) (e := e); rewrite ?K7, ?pushk_rd; assumption|].
    split; auto. cbn [c_conns]. apply like_upd; [exact K7|]. rewrite K7, E.
    unfold pushk. destruct o as [j|]; [|reflexivity]. destruct (Nat.eqb_spec i j) as [Ej|]; [|reflexivity]. exfalso. exact (Hx j eq_refl Ej).
  - destruct (pushk_fields o ds i (f i)) as (F1 & F2 & F3 & F4 & F5 & F6).
    eexists. split; [eapply (S_go linit hstep) with (i := i) (b := b) (acc := acc); rewrite ?K7, ?pushk_rd; assumption|].
    rewrite !K7, F1, F2, F3, F4, F5, F6. split; auto. cbn [c_conns]. apply like_upd; [exact K7|].
    unfold pushk. destruct o as [j|]; [destruct (Nat.eqb i j)|]; reflexivity.
  - eexists. split; [eapply (S_more linit hstep); eassumption|]. split; auto.
  - eexists. split; [eapply (S_end linit hstep); eassumption|]. split; auto.
  - destruct (pushk_fields o ds i (f i)) as (F1 & F2 & F3 & F4 & F5 & F6).
    eexists. split; [eapply (S_quiet linit hstep); eassumption|].
    rewrite !K7, F1, F2, F3, F4, F5, F6. split; auto. cbn [c_conns]. apply like_upd; [exact K7|].
    unfold pushk. destruct o as [j|]; [destruct (Nat.eqb i j)|]; reflexivity.
  - eexists. split; [eapply (S_panic linit hstep); eassumption|]. split; auto.
  - destruct (pushk_fields o ds i (f i)) as (F1 & F2 & F3 & F4 & F5 & F6).
    eexists. split; [eapply (S_write linit hstep); rewrite K7, F3; assumption|].
    rewrite !K7, F1, F2, F4, F5, F6. split; auto. cbn [c_conns]. apply like_upd; [exact K7|].
    unfold pushk. destruct o as [j|]; [destruct (Nat.eqb i j)|]; reflexivity.
  - destruct (pushk_fields o ds i (f i)) as (F1 & F2 & F3 & F4 & F5 & F6).
    eexists. split; [eapply (S_write_err linit hstep); [eassumption|rewrite K7, F3; assumption]|].
    rewrite !K7, F1, F2, F4, F5, F6. split; auto. cbn [c_conns]. apply like_upd; [exact K7|].
    unfold pushk. destruct o as [j|]; [destruct (Nat.eqb i j)|]; reflexivity.
  - eexists. split; [eapply (S_put linit hstep)|]. split; auto.
  - eexists. split; [eapply (S_drop linit hstep)|]. split; auto.
Qed.

Lemma rdone_stays c c' i e : step c c' -> k_rd (c_conns c i) = RDone e -> k_rd (c_conns c' i) = RDone e.
Proof.
  destruct 1; cbn [c_conns]; intros E; auto; unfold updk; destruct (Nat.eqb_spec i i0) as [->|]; auto; cbn [with_rd k_rd]; congruence.
Qed.

(** More input, sent after the fact. *)
Definition more_ins (ins : nat -> list (list byte) * ioerr) (i : nat) (ds : list (list byte)) : nat -> list (list byte) * ioerr :=
  fun j => if Nat.eqb j i then (fst (ins j) ++ ds, snd (ins j)) else ins j.
Lemma like_steps h ins w i ds c : steps (init h ins w) c -> (forall e, k_rd (c_conns c i) <> RDone (RIo e)) ->
  exists c', steps (init h (more_ins ins i ds) w) c' /\ like (Some i) ds c c'.
Proof.
  remember (init h ins w) as c0 eqn:E. induction 1 as [c|c1 c2 c3 R IH S]; subst; intros Hn.
  - eexists. split; [apply steps_refl|]. split; try reflexivity. intros j. cbn [init c_conns pushk]. unfold more_ins.
    destruct (Nat.eqb j i); reflexivity.
  - destruct (IH eq_refl) as (c2' & R' & K).
    { intros e E. apply (Hn e). eapply rdone_stays; eassumption. }
    destruct (like_step _ _ _ _ _ K S) as (c3' & S' & K').
    { intros j e Ej. injection Ej as <-. apply Hn. }
    exists c3'. split; [eapply steps_snoc; eassumption|exact K'].
Qed.

Lemma like_refl c : like None [] c c.
Proof. split; auto. Qed.
Lemma like_trans_none o ds c c1 c2 : like None [] c c1 -> like o ds c1 c2 -> like o ds c c2.
Proof.
  intros [A1 A2 A3 A4 A5 A6 A7] [B1 B2 B3 B4 B5 B6 B7]. split; try congruence. intros j. rewrite B7, A7. reflexivity.
Qed.

(** What a step adds to the output of a connection. *)
Lemma out_step c c' i : step c c' -> k_out (c_conns c' i) = k_out (c_conns c i) \/
  k_broken (c_conns c i) = false /\ k_broken (c_conns c' i) = false /\ exists k r, k_out (c_conns c' i) = k_out (c_conns c i) ++ [(k, r)].
Proof.
  destruct 1; cbn [c_conns]; auto; unfold updk; destruct (Nat.eqb_spec i i0) as [->|]; auto. right. cbn [k_out k_broken]. eauto.
Qed.
Lemma hist_grows c c' : step c c' -> exists x, c_hist c' = c_hist c ++ x.
Proof. destruct 1; cbn [c_hist]; try (exists []; rewrite app_nil_r; reflexivity); eexists; reflexivity. Qed.
Lemma received_grows c c' i : step c c' -> (k_broken (c_conns c i) = false -> k_part (c_conns c i) = []) ->
  exists x, received (c_conns c' i) = received (c_conns c i) ++ x.
Proof.
  intros S Hb. destruct S; cbn [c_conns] in *; try (exists []; rewrite app_nil_r; reflexivity);
    unfold updk; destruct (Nat.eqb_spec i i0) as [->|]; try (exists []; rewrite app_nil_r; reflexivity); unfold received; cbn [k_out k_part].
  - exists r. rewrite (Hb H), map_app, concat_app, !app_nil_r. cbn. rewrite app_nil_r. reflexivity.
  - exists d. rewrite app_assoc. reflexivity.
Qed.
End Push.

(** ** Records *)
Lemma record_inj a b x y : zlen a < 2 ^ 31 -> zlen b < 2 ^ 31 -> record a ++ x = record b ++ y -> a = b /\ x = y.
Proof.
  intros Ha Hb H. unfold record in H. rewrite <- !app_assoc in H. apply app4 in H; [|apply be4_len|apply be4_len].
  destruct H as [H1 H2]. apply (f_equal be_val) in H1. pose proof (zlen_nonneg a). pose proof (zlen_nonneg b).
  rewrite !be4_val in H1 by (unfold u32; lia). assert (Hl : List.length a = List.length b) by (unfold zlen in *; lia).
  split.
  - apply (f_equal (firstn (List.length a))) in H2. rewrite firstn_app, Nat.sub_diag, firstn_O, app_nil_r, firstn_all in H2.
    rewrite Hl, firstn_app, Nat.sub_diag, firstn_O, app_nil_r, firstn_all in H2. exact H2.
  - apply (f_equal (skipn (List.length a))) in H2. rewrite skipn_app, Nat.sub_diag, skipn_O, skipn_all in H2.
    rewrite Hl, skipn_app, Nat.sub_diag, skipn_O, skipn_all in H2. exact H2.
Qed.
Notation small := (fun m : list byte => zlen m < 2 ^ 31).
Lemma record_nonnil m x : record m ++ x <> [].
Proof. intros H. apply (f_equal (@List.length _)) in H. unfold record in H. rewrite !app_length, be4_len in H. cbn in H. lia. Qed.
Lemma records_prefix a : forall b x y, Forall small a -> Forall small b -> (List.length a <= List.length b)%nat ->
  List.concat (map record a) ++ x = List.concat (map record b) ++ y ->
  exists b', b = a ++ b' /\ x = List.concat (map record b') ++ y.
Proof.
  induction a as [|m a IH]; intros b x y Ha Hb Hl H.
  - exists b. auto.
  - destruct b as [|m' b]; [cbn in Hl; lia|]. inversion Ha; subst. inversion Hb; subst. cbn [map List.concat] in H.
    rewrite <- !app_assoc in H. apply record_inj in H; [|assumption|assumption]. destruct H as [-> H].
    destruct (IH b x y) as (b' & -> & ->); auto; [cbn in Hl; lia|]. exists b'. auto.
Qed.
