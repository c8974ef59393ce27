(** Clients and concurrent server together: calls return. *)
From Coq Require Import Permutation.
From Verif Require Import Bytes XdrLib Types Interp Spec Meta Canon Runs Codec RpcTypes RpcSpec RpcWire RpcDec Io Client CallSpec ClientP CliConc
  Server ServSpec ServerP ServerQ ServerX ServerL Heap HeapP HeapQ Conc ConcP ConcQ ConcR ConcL ConcM Net NetP NetQ NetR.
From Verif Require E2E.
Open Scope string_scope.
Open Scope Z_scope.
Open Scope list_scope.

Section Live.
Context {W : Type}.
Variable srv : nat -> server W.
Variable cl : nat -> client.
Variable regs : nat -> list (registration W).
Hypothesis srv_ok : forall i, reach (srv i) (regs i) /\ regs_ok (regs i).
Hypothesis cl_ok : forall i, client_ok (cl i).
Variable prog : nat -> list result -> option callreq.
Variable spec : nat -> nat -> callreq -> W -> W -> E2E.answer -> Prop.
Hypothesis all_served : served cl regs prog spec.
Hypothesis prompt_ok : forall i, prompt_regs (regs i).
Variables (h0 : heap) (w0 : W).
Notation start := (ninit h0 w0 cl).
Notation nsteps := (nsteps srv prog).
Notation nstep := (nstep srv prog).
Notation hstep := (reply_step srv).
Notation move := (move srv prog).
Notation moves := (moves srv prog).
Notation quiet := (quiet srv prog).

Lemma moves_nsteps n x y : moves n x y -> nsteps x y.
Proof. induction 1 as [|n x y z _ IH [S _]]; [constructor|]. eapply nsteps_snoc; eassumption. Qed.

(** ** Something can happen *)
Lemma like_sym (c c' : cfg W unit) : like None [] c c' -> like None [] c' c.
Proof. intros [A1 A2 A3 A4 A5 A6 A7]. split; auto. intros j. rewrite A7. reflexivity. Qed.
Lemma task_step ins c : (forall i, chunks_ok (fst (ins i))) -> steps tt hstep (init h0 ins w0) c -> c_tasks c <> [] ->
  exists c', step tt hstep c c' /\ ~ still c c' /\ (forall j, k_rd (c_conns c' j) = k_rd (c_conns c j)) /\ forall j, k_broken (c_conns c' j) = k_broken (c_conns c j).
Proof.
  intros Hi R Ht. pose proof (never_crashes srv regs srv_ok prompt_ok h0 ins w0 c R) as Hc.
  destruct (all_reach tt hstep h0 ins w0 c Hi R) as (B & _ & _ & _). destruct c as [h p f ts w cr hi]. cbn [c_crashed c_tasks] in *. subst cr.
  destruct ts as [|[i k b o ph] ts]; [congruence|]. destruct B as [_ B _ _ _]. cbn [c_tasks c_heap] in B. inversion B as [|? ? [Hv _] _]; subst. cbn [tk_buf] in Hv.
  pose proof (fun x => @mid_inj (task unit) x (mkT i k b o ph) [] ts) as MI. cbn [app] in MI.
  assert (Hk : forall kk j, k_rd kk = k_rd (f i) -> k_rd (updk f i kk j) = k_rd (f j)) by (intros kk j E; unfold updk; destruct (Nat.eqb_spec j i) as [->|]; auto).
  assert (Hb : forall kk j, k_broken kk = k_broken (f i) -> k_broken (updk f i kk j) = k_broken (f j)) by (intros kk j E; unfold updk; destruct (Nat.eqb_spec j i) as [->|]; auto).
  destruct ph as [l|r|].
  - destruct (reply_total srv regs srv_ok prompt_ok i (sread h b) w l) as ([|w' o' l'|w' o' [r|]] & H1 & H2).
    + exfalso. eapply reply_no_panic; eassumption.
    + inversion H1.
    + rewrite (sread_len _ _ Hv) in H2. eexists. split; [exact (S_end _ _ h p f [] i k b o l ts w hi w' o' r H1 H2)|].
      split; [|split; intros j; reflexivity]. intros (X & _). cbn [c_tasks] in X. apply MI in X. discriminate X.
    + rewrite (sread_len _ _ Hv) in H2. eexists. split; [exact (S_quiet _ _ h p f [] i k b o l ts w hi w' o' H1 H2)|].
      split; [|split; intros j; cbn [c_conns]; [apply Hk|apply Hb]; reflexivity]. intros (X & _). cbn [c_tasks] in X. apply MI in X. discriminate X.
  - destruct (k_broken (f i)) eqn:Eb.
    + eexists. split; [apply (S_write_err tt hstep h p f [] i k b o r ts w hi []); [exists r; reflexivity|auto]|].
      split; [|split; intros j; cbn [c_conns]; [apply Hk; reflexivity|apply Hb; cbn; auto]]. intros (X & _). cbn [c_tasks] in X. apply MI in X. discriminate X.
    + eexists. split; [exact (S_write tt hstep h p f [] i k b o r ts w hi Eb)|].
      split; [|split; intros j; cbn [c_conns]; [apply Hk; reflexivity|apply Hb; cbn; auto]]. intros (X & _). cbn [c_tasks] in X. apply MI in X. discriminate X.
  - eexists. split; [exact (S_put tt hstep h p f [] i k b o ts w hi)|].
    split; [|split; intros j; reflexivity]. intros (X & _). cbn [c_tasks app] in X. apply (f_equal (@List.length _)) in X. cbn in X. lia.
Qed.
(** The reader of [i] can do something, or what it has not handed on is not a record. *)
Lemma reader_step ins c i : (forall i, chunks_ok (fst (ins i))) -> steps tt hstep (init h0 ins w0) c ->
  (exists rest, List.concat (fst (ins i)) = List.concat (map record (k_reqs (c_conns c i))) ++ rest /\ no_record rest) \/
  exists c', step tt hstep c c' /\ ~ still c c' /\ (forall j e, k_rd (c_conns c' j) = RDone (RIo e) -> k_rd (c_conns c j) = RDone (RIo e)) /\
    forall j, k_broken (c_conns c' j) = k_broken (c_conns c j).
Proof.
  intros Hi R. pose proof (never_crashes srv regs srv_ok prompt_ok h0 ins w0 c R) as Hc.
  destruct (all_reach tt hstep h0 ins w0 c Hi R) as (_ & Hk & _ & _). specialize (Hk i). destruct Hk as (Hck & _ & Hk). destruct c as [h p f ts w cr hi]. cbn [c_crashed c_conns] in *. subst cr.
  assert (X : forall kk h' p' ts', step tt hstep (mkC h p f ts w false hi) (mkC h' p' (updk f i kk) ts' w false hi) -> k_rd kk <> k_rd (f i) ->
    (forall e, k_rd kk <> RDone (RIo e)) -> k_broken kk = k_broken (f i) ->
    exists c', step tt hstep (mkC h p f ts w false hi) c' /\ ~ still (mkC h p f ts w false hi) c' /\
      (forall j e, k_rd (c_conns c' j) = RDone (RIo e) -> k_rd (f j) = RDone (RIo e)) /\ forall j, k_broken (c_conns c' j) = k_broken (f j)).
  { intros kk h' p' ts' S N E1 E2. eexists. split; [exact S|]. split; [|split].
    - intros (_ & _ & Q). specialize (Q i). cbn [c_conns] in Q. unfold updk in Q. rewrite Nat.eqb_refl in Q. exact (N Q).
    - intros j e. cbn [c_conns]. unfold updk. destruct (Nat.eqb_spec j i) as [->|]; [intros K; exfalso; exact (E1 _ K)|auto].
    - intros j. cbn [c_conns]. unfold updk. destruct (Nat.eqb_spec j i) as [->|]; auto. }
  destruct (k_rd (f i)) as [acc|b acc|e] eqn:Er.
  - destruct Hk as [Hl Hk]. destruct (Nat.eq_dec (List.length acc) 4) as [H4|H4].
    + right. destruct (Z.eq_dec (Z.land (get_u32 acc) (2 ^ 31)) 0) as [E|E].
      * eapply X; [eapply S_frag; eassumption|discriminate|discriminate|reflexivity].
      * eapply X; [eapply S_get; try eassumption; apply G_nil|discriminate|discriminate|reflexivity].
    + destruct (stream_read (k_in (f i)) (4 - List.length acc)) as [[s d] [e|]] eqn:Es.
      * left. apply sr_err in Es. destruct Es as (_ & Es & _). rewrite Es in Hk. cbn [List.concat] in Hk. rewrite app_nil_r in Hk. exists acc. split; [exact Hk|]. apply short_no_record. lia.
      * right. eapply X; [eapply S_hdr; try eassumption; lia| |discriminate|reflexivity]. cbn [with_rd k_rd]. intros Q. injection Q as Q. apply sr_some in Es; [|exact Hck|lia].
        apply (f_equal (@List.length _)) in Q. rewrite app_length in Q. lia.
  - destruct Hk as (Hl & Hb & Hk). destruct (Nat.eq_dec (List.length acc) (sl_len b)) as [H4|H4].
    + right. eapply X; [eapply S_go; eassumption|discriminate|discriminate|reflexivity].
    + destruct (stream_read (k_in (f i)) (sl_len b - List.length acc)) as [[s d] [e|]] eqn:Es.
      * left. apply sr_err in Es. destruct Es as (_ & Es & _). rewrite Es in Hk. cbn [List.concat] in Hk. rewrite app_nil_r in Hk. eexists. split; [exact Hk|]. apply cut_no_record; [lia|exact Hb].
      * right. eapply X; [eapply S_body; try eassumption; lia| |discriminate|reflexivity]. cbn [with_rd k_rd]. intros Q. injection Q as Q. apply sr_some in Es; [|exact Hck|lia].
        apply (f_equal (@List.length _)) in Q. rewrite app_length in Q. lia.
  - left. exact Hk.
Qed.

Lemma still_like (c c2 d d2 : cfg W unit) : like None [] c d -> like None [] c2 d2 -> still d d2 -> still c c2.
Proof.
  intros K K2 (A & B & C). pose proof (lk_tasks _ _ _ _ K). pose proof (lk_tasks _ _ _ _ K2). pose proof (lk_crashed _ _ _ _ K). pose proof (lk_crashed _ _ _ _ K2).
  split; [congruence|]. split; [congruence|]. intros j. rewrite <- (like_at _ _ j K), <- (like_at _ _ j K2). apply C.
Qed.
(** A step of the server side, as a move. *)
Lemma srv_move c f ms reps ins c' : ninv srv prog cl h0 w0 (c, f) ms reps ins c' ->
  (exists d, step tt hstep c' d /\ ~ still c' d /\ (forall j e, k_rd (c_conns d j) = RDone (RIo e) -> k_rd (c_conns c' j) = RDone (RIo e)) /\
    forall j, k_broken (c_conns d j) = k_broken (c_conns c' j)) ->
  exists y, move (c, f) y /\ ~ unmoved (c, f) y /\ forall j, k_broken (c_conns (fst y) j) = k_broken (c_conns c j).
Proof.
  intros [N1 N2 N3 N4 N5 N6 N7] (d & S & Hs & Hr & Hb). cbn [fst snd] in *.
  destruct (like_step tt hstep None [] c' c d (like_sym _ _ N2) S) as (c2 & S2 & K2); [discriminate|].
  exists (c2, f). split; [split; [|reflexivity]|split].
  - apply N_srv; [exact S2|]. intros j e He. rewrite (like_at _ _ j K2) in He. apply Hr in He. rewrite (like_at _ _ j N2) in He. eapply N5. exact He.
  - intros [Q _]. apply Hs. cbn [fst] in Q. eapply still_like; [apply like_sym; exact N2|exact K2|exact Q].
  - intros j. cbn [fst]. rewrite (like_at _ _ j K2), Hb, (like_at _ _ j N2). reflexivity.
Qed.

Notation cok := (served_calls_ok srv cl regs srv_ok cl_ok prog spec all_served w0).
Lemma ms_answered x ms reps ins c' : nsteps start x -> ninv srv prog cl h0 w0 x ms reps ins c' -> forall i k m, nth_error (ms i) k = Some m ->
  forall w, exists w' rep, sends (srv i) w m w' rep.
Proof.
  intros R [N1 N2 N3 N4 N5 N6 N7] i k m Hm w. destruct (pi_ms _ _ _ _ _ _ _ _ _ (N7 i) k m Hm) as (q & Hc & Ha).
  destruct (program srv cl regs srv_ok cl_ok prog cok h0 w0 x R i) as (_ & P1 & P2).
  assert (exists done, prog i done = Some q /\ List.length done = k) as (done & Hp & Hl).
  { destruct Hc as [(v & e & Hj)|(-> & t & Ht)].
    - exists (firstn k (p_done (snd x i))). split; [eapply P1; exact Hj|]. apply firstn_length_le.
      assert (k < List.length (p_done (snd x i)))%nat by (apply nth_error_Some; congruence). lia.
    - exists (p_done (snd x i)). split; [apply (P2 _ _ Ht)|reflexivity]. }
  destruct (all_served i done q Hp) as (Hq & _ & Hi). subst k. destruct (Hi w) as (w' & a & _ & H).
  destruct (invokes_sends srv cl regs srv_ok cl_ok _ _ _ _ _ _ _ Hq (proj1 Ha) H) as (rep & Hs & _). eauto.
Qed.

(** All the server has been sent is answered when it has nothing to do. *)
Lemma all_answered x ms reps ins c' i : nsteps start x -> ninv srv prog cl h0 w0 x ms reps ins c' -> c_tasks (fst x) = [] ->
  (exists rest, List.concat (fst (ins i)) = List.concat (map record (k_reqs (c_conns c' i))) ++ rest /\ no_record rest) ->
  k_broken (c_conns (fst x) i) = false ->
  exists os, received (c_conns (fst x) i) = List.concat (map record os) /\ Forall (fun m => zlen m < 2 ^ 31) os /\ List.length os = List.length (ms i).
Proof.
  intros R N Ht (rest & E & Hn) Hb. pose proof (ms_answered _ _ _ _ _ R N i) as Hans. destruct N as [N1 N2 N3 N4 N5 N6 N7].
  destruct (pinv_small _ _ _ _ _ _ _ _ _ (N7 i)) as (Sm & Sr & Sa).
  destruct (reqs_prefix srv h0 w0 ins c' N3 N1 i (ms i) (N4 i) Sm) as (ms' & Em).
  destruct (outs_records srv regs srv_ok h0 w0 ins c' N3 N1 i (ms i) (N4 i) Sm Sa) as (os & Eo & Hos).
  destruct (c42_account tt _ _ _ _ N3 _ N1 i) as (_ & Q & P). rewrite (like_at _ _ i N2) in *. destruct (Q Hb) as [Ep Ef].
  exists os. split; [unfold received; rewrite Eo, Ep, app_nil_r; reflexivity|]. split; [exact Hos|].
  assert (ms' = []) as ->.
  { rewrite N4, Em, map_app, concat_app in E. apply app_inv_head in E. destruct ms' as [|m ms']; [reflexivity|]. exfalso.
    cbn [map List.concat] in E. eapply (Hn m); [|symmetry; exact E]. rewrite Em in Sm. apply Forall_app in Sm. destruct Sm as [_ Sm]. inversion Sm; subst. assumption. }
  rewrite app_nil_r in Em. rewrite Em.
  assert (k_quiet (c_conns (fst x) i) = []) as Eq.
  { destruct (k_quiet (c_conns (fst x) i)) as [|k ks] eqn:Ek; [reflexivity|]. exfalso.
    destruct (all_reach tt _ _ _ _ _ N3 N1) as (_ & _ & _ & H). destruct (h_quiet _ _ _ _ H i k) as (rq & ow & Hrq & Hth).
    { rewrite (like_at _ _ i N2), Ek. left. reflexivity. }
    apply thread_reply with (regs := regs) in Hth; [|exact srv_ok].
    destruct Hth as [[_ X]|[(w & w' & rep & _ & _ & X)|(w & w' & _ & Hs & _)]]; [discriminate|discriminate|].
    rewrite (like_at _ _ i N2), <- Em in Hrq. destruct (Hans k rq Hrq w) as (w2 & rep & Hs2). eapply sends_silent; eassumption. }
  rewrite Ef, Eq, (lk_tasks _ _ _ _ N2), Ht in P. cbn [filter map app] in P. rewrite app_nil_r in P.
  apply Permutation_length in P. rewrite map_length, seq_length in P. rewrite <- P.
  apply (f_equal (@List.length _)) in Eo. rewrite !map_length in Eo. congruence.
Qed.

Lemma cat_one (l : list byte) : List.concat [l] = l.
Proof. cbn. apply app_nil_r. Qed.
(** A step of client [i], as a move. *)
Lemma cli_move c f i q t cs rest N c1 s1 t1 : p_th (f i) = Some (q, t) -> (forall v e, t <> TDone v e) ->
  skipn (p_pos (f i)) (received (c_conns c i)) = List.concat cs ++ rest -> chunks_ok cs -> (waiting t -> cs <> []) ->
  (forall n, (N <= n)%nat -> tstep n stream_conn (p_cl (f i)) (mkStream cs EOF []) t = (c1, s1, t1)) -> t1 <> t ->
  exists y, move (c, f) y /\ ~ unmoved (c, f) y /\ forall j, k_broken (c_conns (fst y) j) = k_broken (c_conns c j).
Proof.
  intros Et Hnd Hr Hcs Hw Hst Ht1.
  assert (exists ds, chunks_ok ds /\ List.concat ds = List.concat (si_out s1)) as (ds & Hds & Ecat).
  { destruct (List.concat (si_out s1)) as [|b l]; [exists []; split; [constructor|reflexivity]|]. exists [b :: l]. split; [constructor; [discriminate|constructor]|apply cat_one]. }
  eexists. split; [split; [eapply N_cli; eassumption|]|split].
  - intros j Hj. cbn [snd] in *. unfold updp. destruct (Nat.eqb_spec j i) as [->|]; [congruence|reflexivity].
  - intros [_ Q]. specialize (Q i). cbn [snd] in Q. unfold updp in Q. rewrite Nat.eqb_refl in Q. apply (f_equal p_th) in Q. cbn [p_th] in Q. rewrite Et in Q. congruence.
  - intros j. cbn [fst push c_conns]. unfold updk. destruct (Nat.eqb_spec j i) as [->|]; reflexivity.
Qed.

Lemma progress x i q t : nsteps start x -> p_th (snd x i) = Some (q, t) -> k_broken (c_conns (fst x) i) = false ->
  exists y, move x y /\ ~ unmoved x y /\ forall j, k_broken (c_conns (fst y) j) = k_broken (c_conns (fst x) j).
Proof.
  intros R Et Hb. destruct (ninv_all srv regs srv_ok prog cl cl_ok cok h0 w0 x R) as (ms & reps & ins & c' & N). destruct x as [c f]. cbn [fst snd] in *.
  destruct (c_tasks c) as [|tk tks] eqn:Etk.
  2: { eapply srv_move; [exact N|]. pose proof N as [N1 N2 N3 N4 N5 N6 N7]. cbn [fst] in *.
    destruct (task_step ins c' N3 N1) as (d & S & A & B & C); [rewrite (lk_tasks _ _ _ _ N2), Etk; discriminate|].
    exists d. split; [exact S|]. split; [exact A|]. split; [|exact C]. intros j e. rewrite B. auto. }
  destruct (reader_step ins c' i (ni_ins _ _ _ _ _ _ _ _ _ _ N) (ni_reach _ _ _ _ _ _ _ _ _ _ N)) as [Hrest|Hstep]; [|eapply srv_move; eassumption].
  pose proof (all_answered _ _ _ _ _ i R N Etk Hrest Hb) as (os & Erv & Hos & Los). cbn [fst snd] in Erv.
  pose proof (ni_peer _ _ _ _ _ _ _ _ _ _ N i) as Pi. cbn [fst snd] in Pi. destruct (pinv_small _ _ _ _ _ _ _ _ _ Pi) as (_ & Sr & _).
  pose proof Pi as [P1 P2 P3 P4 P5]. unfold tinv in P5. rewrite Et in P5. destruct P5 as (Hp & Hcl & P5).
  destruct (all_served i _ _ Hp) as (Hq & He & _).
  assert (X0 : forall c1 t1 M, (forall v e, t <> TDone v e) -> ~ waiting t -> t1 <> t ->
    (forall n, (M <= n)%nat -> tstep n stream_conn (p_cl (f i)) (mkStream [] EOF []) t = (c1, mkStream [] EOF [], t1)) ->
    exists y, move (c, f) y /\ ~ unmoved (c, f) y /\ forall j, k_broken (c_conns (fst y) j) = k_broken (c_conns c j)).
  { intros c1 t1 M H1 H2 H3 H4. eapply (cli_move c f i q t []); [exact Et|exact H1|cbn; reflexivity|constructor|intros; contradiction|exact H4|exact H3]. }
  destruct t as [q'|q'|q' w|hdr q' k acc|q' b|v e|]; [| | | | | |destruct P5].
  - eapply (X0 _ _ 0%nat); [discriminate|intros []| |intros n _; cbn [tstep]; reflexivity]. discriminate.
  - destruct P5 as (-> & L1 & L2 & L3 & L4).
    destruct (call_request_spec (p_cl (f i)) q ltac:(rewrite L4; apply after_ok; exact cl_ok) Hq) as (N' & [[_ (msg & Hr & Hc)]|[Hn _]]); [|contradiction].
    eapply (X0 _ _ N'); [discriminate|intros []| |intros n Hn; cbn [tstep]; rewrite (Hc n Hn); reflexivity]. discriminate.
  - eapply (cli_move c f i q _ [] _ 0%nat); [exact Et|discriminate|cbn; reflexivity|constructor|intros []|intros n _; cbn [tstep stream_conn c_write]; reflexivity|discriminate].
  - destruct k as [|k].
    + destruct hdr.
      * destruct (Z.land (get_u32 acc) (2 ^ 31) =? 0) eqn:E0.
        -- eapply (X0 _ _ 0%nat); [discriminate|intros []| |intros n _; cbn [tstep]; rewrite E0; reflexivity]. discriminate.
        -- eapply (X0 _ _ 0%nat); [discriminate|intros []| |intros n _; cbn [tstep]; rewrite E0; reflexivity]. discriminate.
      * eapply (X0 _ _ 0%nat); [discriminate|intros []| |intros n _; cbn [tstep]; reflexivity]. discriminate.
    + destruct (skipn (p_pos (f i)) (received (c_conns c i))) as [|b0 l0] eqn:Esk.
      * exfalso. apply (f_equal (@List.length _)) in Esk. rewrite skipn_length in Esk. cbn [List.length] in Esk. rewrite Erv in Esk. fold (rlen os) in Esk.
        assert (Ll : (List.length (reps i) <= List.length os)%nat) by (destruct hdr; rewrite Los; intuition lia).
        assert (L1' : List.length os = S (List.length (reps i))) by (destruct hdr; rewrite Los; intuition lia).
        assert (Hsplit : forall rest, List.concat (map record os) = List.concat (map record (reps i)) ++ rest -> exists b, os = reps i ++ [b] /\ rest = record b /\ zlen b < 2 ^ 31).
        { intros rest Hr. destruct (records_prefix (reps i) os rest [] Sr Hos Ll) as (b' & Eb & Er); [rewrite app_nil_r; symmetry; exact Hr|].
          rewrite Eb, app_length in L1'. destruct b' as [|b [|b2 b']]; cbn in L1'; try lia. exists b. split; [exact Eb|]. cbn in Er. rewrite !app_nil_r in Er. split; [exact Er|].
          rewrite Eb in Hos. apply Forall_app in Hos. destruct Hos as [_ Hos]. inversion Hos; assumption. }
        destruct hdr.
        -- destruct P5 as (-> & _ & _ & _ & L4 & L5 & rest & L6). rewrite Erv in L6. destruct (Hsplit _ L6) as (b & Eb & Er & _).
           rewrite Eb, rlen_snoc, L5 in Esk. lia.
        -- destruct P5 as (-> & _ & _ & _ & hdr & rest & L4 & L5 & L6 & L7 & L8). rewrite Erv in L8. destruct (Hsplit _ L8) as (b & Eb & Er & Hzb).
           rewrite Eb, rlen_snoc, L7 in Esk. unfold record in Er. apply app4 in Er; [|exact L4|apply be4_len]. destruct Er as [Eh Er].
           destruct (hdr_val hdr L4 L5) as [V1 V2]. rewrite V2 in Eh. apply (f_equal be_val) in Eh. pose proof (zlen_nonneg b). rewrite !be4_val in Eh by (unfold u32; lia).
           unfold zlen in *. lia.
      * destruct (stream_read (mkStream [b0 :: l0] EOF []) (S k)) as [[s2 d2] e2] eqn:Er.
        assert (e2 = None) as ->. { unfold stream_read in Er. cbn [si_in] in Er. destruct (Nat.leb _ _); injection Er as _ _ <-; reflexivity. }
        pose proof (stream_read_len _ _ _ _ _ Er) as Hd2.
        assert (Hck : chunks_ok [b0 :: l0]) by (constructor; [discriminate|constructor]).
        pose proof (sr_some (mkStream [b0 :: l0] EOF []) _ _ _ Hck (Nat.lt_0_succ k) Er) as Hd3.
        eapply (cli_move c f i q _ [b0 :: l0] [] 0%nat); [exact Et|discriminate|rewrite cat_one, app_nil_r; exact Esk|exact Hck|discriminate| |].
        { intros n _. cbn [tstep stream_conn c_read]. rewrite Er. destruct (Nat.ltb_spec (S k) (List.length d2)) as [Hlt|_]; [lia|]. reflexivity. }
        intros Q. apply (f_equal (fun t => match t with TRead _ _ n _ => n | _ => O end)) in Q. cbv beta iota in Q. lia.
  - destruct P5 as (-> & L1 & L2 & L3 & L4 & L5). destruct Hq as (Hq1 & Hq2 & Hq3 & Hq4 & Hq5).
    destruct (call_reply_spec (cl_xid (p_cl (f i))) b (rq_resp q)) as (N' & v & e & Ho & Hc).
    { rewrite L3. apply after_ok. exact cl_ok. } { exact Hq5. }
    eapply (X0 _ _ N'); [discriminate|intros []| |intros n Hn; cbn [tstep]; rewrite (Hc n Hn); reflexivity]. discriminate.
  - eexists. split; [split; [eapply N_ret; exact Et|]|split].
    + intros j Hj. cbn [snd] in *. unfold updp. destruct (Nat.eqb_spec j i) as [->|]; [congruence|reflexivity].
    + intros [_ Q]. specialize (Q i). cbn [snd] in Q. unfold updp in Q. rewrite Nat.eqb_refl in Q. apply (f_equal p_th) in Q. cbn [p_th] in Q. congruence.
    + reflexivity.
Qed.

Lemma quiet_returned x : nsteps start x -> quiet x -> forall i, k_broken (c_conns (fst x) i) = false -> p_th (snd x i) = None.
Proof.
  intros R Q i Hb. destruct (p_th (snd x i)) as [[q t]|] eqn:Et; [|reflexivity]. exfalso. destruct (progress x i q t R Et Hb) as (y & M & N & _). exact (N (Q y M)).
Qed.

(** ** Only finitely much can happen *)
Notation M := (Z.to_nat (2 ^ 31)).
Definition mt (t : CliConc.thread) : nat :=
  match t with
  | TStart _ => 12 + M + 7 * (4 + M)
  | TInc _ => 11 + M + 7 * (4 + M)
  | TSend _ w => 10 + M + 7 * (4 + List.length w)
  | TRead true _ k _ => 5 + M + k
  | TRead false _ k _ => 4 + k
  | TCheck _ _ => 3
  | TDone _ _ => 2
  | TCrash => 1
  end%nat.
Definition mp (p : peer) : nat := match p_th p with Some (_, t) => mt t | None => 0%nat end.
Definition nw (K : nat) (x : net W) : nat := (wc tt (fun _ => 0%nat) K (fst x) + sum (map (fun i => mp (snd x i)) (seq 0 K)))%nat.
(** Connections [K] and above have not been used. *)
Definition fresh_from (K : nat) (x : net W) : Prop := forall i, (K <= i)%nat ->
  p_th (snd x i) = None /\ p_closed (snd x i) = false /\ k_rd (c_conns (fst x) i) = RHdr [] /\ si_in (k_in (c_conns (fst x) i)) = [].

Lemma sum_at (f g : nat -> nat) i K : (forall j, j <> i -> g j = f j) -> forall s, (s <= i < s + K)%nat ->
  (sum (map g (seq s K)) + f i = sum (map f (seq s K)) + g i)%nat.
Proof.
  intros Hn. assert (Z : forall K s, (i < s)%nat -> sum (map g (seq s K)) = sum (map f (seq s K))).
  { clear K. intros K s Hs. f_equal. apply map_ext_in. intros j Hj. apply in_seq in Hj. apply Hn. lia. }
  unfold sum in *. induction K as [|K IH]; intros s Hs; [lia|]. cbn [seq map fold_right]. destruct (Nat.eq_dec s i) as [->|N].
  - rewrite Z by lia. lia.
  - specialize (IH (S s) ltac:(lia)). rewrite (Hn s N). lia.
Qed.
Lemma fresh_step (c c' : cfg W unit) i : step tt hstep c c' -> k_rd (c_conns c i) = RHdr [] -> si_in (k_in (c_conns c i)) = [] ->
  (k_rd (c_conns c' i) = RHdr [] /\ si_in (k_in (c_conns c' i)) = []) \/ exists e, k_rd (c_conns c' i) = RDone (RIo e).
Proof.
  intros S Hr Hi. destruct S; cbn [c_conns] in *; auto; unfold updk; destruct (Nat.eqb_spec i i0) as [->|]; auto; cbn [with_rd k_rd k_in]; auto; try congruence.
  - exfalso. unfold stream_read in H1. rewrite Hi in H1. discriminate H1.
  - right. eauto.
  - exfalso. rewrite Hr in H. injection H as <-. discriminate H0.
  - exfalso. rewrite Hr in H. injection H as <-. discriminate H0.
Qed.
Lemma fresh_start : fresh_from 0 start.
Proof. intros i _. cbn. auto. Qed.
Lemma step_one (c c' : cfg W unit) : step tt hstep c c' -> exists i, forall j, j <> i -> c_conns c' j = c_conns c j.
Proof.
  intros S. destruct S; cbn [c_conns]; try (exists 0%nat; reflexivity); exists i; intros j Hj; unfold updk; destruct (Nat.eqb_spec j i); congruence.
Qed.
Lemma fresh_nstep K x y : fresh_from K x -> nstep x y -> exists K', fresh_from K' y.
Proof.
  intros F S.
  assert (X : exists i, forall j, j <> i -> snd y j = snd x j /\ c_conns (fst y) j = c_conns (fst x) j).
  { destruct S as [c c2 f S Hcl|c f i q Et Ec Ep|c f i q t cs rest n c1 s1 t1 ds Et Hnd Hr Hcs Hw Hst Hds Hcat|c f i q v e Et|c f i Et Ec].
    - destruct (step_one _ _ S) as (i & Hi). exists i. intros j Hj. cbn [fst snd]. auto.
    - exists i. intros j Hj. cbn [fst snd]. unfold updp. destruct (Nat.eqb_spec j i); [congruence|auto].
    - exists i. intros j Hj. cbn [fst snd push c_conns]. unfold updp, updk. destruct (Nat.eqb_spec j i); [congruence|auto].
    - exists i. intros j Hj. cbn [fst snd]. unfold updp. destruct (Nat.eqb_spec j i); [congruence|auto].
    - exists i. intros j Hj. cbn [fst snd]. unfold updp. destruct (Nat.eqb_spec j i); [congruence|auto]. }
  destruct X as (i & Hi). exists (Nat.max K (Datatypes.S i)). intros j Hj. destruct (Hi j ltac:(lia)) as [-> ->]. apply F. lia.
Qed.
Lemma fresh_nsteps x : nsteps start x -> exists K, fresh_from K x.
Proof.
  remember start as x0 eqn:E. induction 1 as [x|x y z R IH S]; subst; [exists 0%nat; apply fresh_start|].
  destruct (IH eq_refl) as (K & F). exact (fresh_nstep K y z F S).
Qed.
Lemma fresh_move K x y : fresh_from K x -> move x y -> fresh_from K y.
Proof.
  intros F [S Hs] i Hi. destruct (F i Hi) as (F1 & F2 & F3 & F4). pose proof (Hs i F1) as E. rewrite E. split; [exact F1|]. split; [exact F2|].
  destruct S as [c c2 f S Hcl|c f j q Et Ec Ep|c f j q t cs rest n c1 s1 t1 ds Et Hnd Hr Hcs Hw Hst Hds Hcat|c f j q v e Et|c f j Et Ec]; cbn [fst snd] in *; auto.
  - destruct (fresh_step _ _ i S F3 F4) as [Q|(e & Q)]; [exact Q|]. apply Hcl in Q. congruence.
  - cbn [push c_conns]. unfold updk. destruct (Nat.eqb_spec i j) as [->|]; [congruence|auto].
Qed.

Lemma wc_push K (c : cfg W unit) i ds : (i < K)%nat -> wc tt (fun _ => 0%nat) K (push i ds c) = (wc tt (fun _ => 0%nat) K c + 7 * List.length (List.concat ds))%nat.
Proof.
  intros Hi. unfold wc. cbn [push c_crashed c_pool c_tasks c_conns].
  pose proof (sum_upd tt (fun _ => 0%nat) (c_conns c) i (kpush ds (c_conns c i)) K 0 ltac:(lia)) as E.
  unfold wk in E at 2 4. cbn [kpush k_rd k_in si_in] in E. rewrite concat_app, app_length in E. cbn [wA] in E. unfold wA in E. lia.
Qed.
Lemma mp_upd K f i p : (i < K)%nat -> (sum (map (fun j => mp (updp f i p j)) (seq 0 K)) + mp (f i) = sum (map (fun j => mp (f j)) (seq 0 K)) + mp p)%nat.
Proof.
  intros Hi. pose proof (sum_at (fun j => mp (f j)) (fun j => mp (updp f i p j)) i K) as E. cbv beta in E. rewrite E.
  - unfold updp. rewrite Nat.eqb_refl. reflexivity.
  - intros j Hj. unfold updp. destruct (Nat.eqb_spec j i); congruence.
  - lia.
Qed.

Lemma move_dec K x y : nsteps start x -> fresh_from K x -> move x y -> (nw K y < nw K x)%nat.
Proof.
  intros R F Mv. destruct (ninv_all srv regs srv_ok prog cl cl_ok cok h0 w0 x R) as (ms & reps & ins & c' & N).
  assert (Hck : chunked (fst x)).
  { intros i. rewrite <- (like_at _ _ i (ni_like _ _ _ _ _ _ _ _ _ _ N)). apply (reach_chunked tt hstep h0 ins w0 (ni_ins _ _ _ _ _ _ _ _ _ _ N) c' (ni_reach _ _ _ _ _ _ _ _ _ _ N)). }
  pose proof (fresh_move K x y F Mv) as F'. destruct Mv as [S Hs].
  destruct S as [c c2 f S Hcl|c f i q Et Ec Ep|c f i q t cs rest n c1 s1 t1 ds Et Hnd Hr Hcs Hw Hst Hds Hcat|c f i q v e Et|c f i Et Ec]; unfold nw; cbn [fst snd] in *.
  - assert (act tt hstep K c c2) as A.
    { split; [exact S|]. intros i Hi. destruct (F i Hi) as (_ & _ & Q1 & _). destruct (F' i Hi) as (_ & _ & Q2 & _). cbn [fst] in Q1, Q2. congruence. }
    pose proof (act_dec tt hstep (fun _ => 0%nat) (reply_more srv) K c c2 Hck A). lia.
  - exfalso. specialize (Hs i Et). unfold updp in Hs. rewrite Nat.eqb_refl in Hs. apply (f_equal p_th) in Hs. cbn in Hs. congruence.
  - assert (i < K)%nat as Hi. { destruct (Nat.lt_ge_cases i K) as [Q|Q]; [exact Q|]. destruct (F i Q) as (Q1 & _). cbn [snd] in Q1. congruence. }
    rewrite wc_push by exact Hi. pose proof (mp_upd K f i (mkPeer c1 (Some (q, t1)) (p_pos (f i) + (List.length (List.concat cs) - List.length (List.concat (si_in s1)))) (p_done (f i)) (p_closed (f i))) Hi) as E.
    unfold mp in E at 2 4. rewrite Et in E. cbn [p_th] in E. rewrite Hcat.
    enough (7 * List.length (List.concat (si_out s1)) + mt t1 < mt t)%nat by lia. clear E.
    pose proof (ni_peer _ _ _ _ _ _ _ _ _ _ N i) as Pi. cbn [fst snd] in Pi.
    pose proof Pi as [P1 P2 P3 P4 P5]. unfold tinv in P5. rewrite Et in P5. destruct P5 as (Hp & Hclo & P5).
    destruct (all_served i _ _ Hp) as (Hq & He & _).
    destruct t as [q'|q'|q' w|hdr q' k acc|q' b|v e|]; [| | | | | |destruct P5].
    + specialize (Hst n (le_n _)). cbn [tstep] in Hst. injection Hst as <- <- <-. cbn [si_out List.concat List.length mt]. lia.
    + destruct P5 as (-> & L1 & L2 & L3 & L4).
      destruct (call_request_spec (p_cl (f i)) q ltac:(rewrite L4; apply after_ok; exact cl_ok) Hq) as (N' & [[_ (msg & Hrq & Hc)]|[Hn _]]); [|contradiction].
      specialize (Hst (n + N')%nat ltac:(lia)). cbn [tstep] in Hst. rewrite Hc in Hst by lia. injection Hst as <- <- <-. cbn [si_out List.concat List.length mt].
      destruct (cok i _ _ Hp) as (_ & _ & Hm). rewrite L4 in Hrq. destruct (after_prog cl i (S (List.length (p_done (f i))))) as [E1 E2]. rewrite E1, E2 in Hrq.
      destruct (Hm _ Hrq) as [Hz _]. unfold zlen in Hz. lia.
    + specialize (Hst n (le_n _)). cbn [tstep stream_conn c_write] in Hst.
      apply pair_equal_spec in Hst. destruct Hst as [Hst <-]. apply pair_equal_spec in Hst. destruct Hst as [<- <-].
      cbn [si_out app List.concat]. rewrite app_nil_r, app_length, (be4_len : forall n, List.length (put_u32 n) = 4%nat). cbn [mt]. lia.
    + destruct k as [|k].
      * specialize (Hst n (le_n _)). cbn [tstep] in Hst. destruct hdr.
        -- destruct P5 as (-> & _ & _ & _ & L4 & _). cbn [Nat.add] in L4. destruct (Z.eqb_spec (Z.land (get_u32 acc) (2 ^ 31)) 0) as [E0|E0].
           ++ injection Hst as <- <- <-. cbn [si_out List.concat List.length mt]. lia.
           ++ injection Hst as <- <- <-. cbn [si_out List.concat List.length mt]. destruct (hdr_val acc L4 E0) as [V1 _]. cbv zeta in V1. lia.
        -- injection Hst as <- <- <-. cbn [si_out List.concat List.length mt]. lia.
      * specialize (Hw I). destruct cs as [|c0 cs]; [congruence|]. specialize (Hst n (le_n _)). cbn [tstep stream_conn c_read] in Hst.
        destruct (stream_read (mkStream (c0 :: cs) EOF []) (S k)) as [[s2 d2] e2] eqn:Er.
        assert (e2 = None) as ->. { unfold stream_read in Er. cbn [si_in] in Er. destruct (Nat.leb _ _); injection Er as _ _ <-; reflexivity. }
        pose proof (stream_read_len _ _ _ _ _ Er) as Hd2. pose proof (sr_some (mkStream (c0 :: cs) EOF []) _ _ _ Hcs (Nat.lt_0_succ k) Er) as Hd3.
        destruct (Nat.ltb_spec (S k) (List.length d2)) as [Hlt|_]; [lia|].
        apply pair_equal_spec in Hst. destruct Hst as [Hst <-]. apply pair_equal_spec in Hst. destruct Hst as [<- <-].
        assert (Hout : si_out s2 = []). { unfold stream_read in Er. cbn [si_in si_end si_out] in Er. destruct (Nat.leb _ _); injection Er as <- _; reflexivity. }
        rewrite Hout. cbn [List.concat List.length mt]. destruct hdr; lia.
    + destruct P5 as (-> & L1 & L2 & L3 & L4 & L5). destruct Hq as (Hq1 & Hq2 & Hq3 & Hq4 & Hq5).
      destruct (call_reply_spec (cl_xid (p_cl (f i))) b (rq_resp q)) as (N' & v & e & Ho & Hc).
      { rewrite L3. apply after_ok. exact cl_ok. } { exact Hq5. }
      specialize (Hst (n + N')%nat ltac:(lia)). cbn [tstep] in Hst. rewrite Hc in Hst by lia. injection Hst as <- <- <-. cbn [si_out List.concat List.length mt]. lia.
    + exfalso. exact (Hnd v e eq_refl).
  - assert (i < K)%nat as Hi. { destruct (Nat.lt_ge_cases i K) as [Q|Q]; [exact Q|]. destruct (F i Q) as (Q1 & _). cbn [snd] in Q1. congruence. }
    pose proof (mp_upd K f i (mkPeer (p_cl (f i)) None (p_pos (f i)) (p_done (f i) ++ [(q, v, e)]) (p_closed (f i))) Hi) as E.
    unfold mp in E at 2 4. rewrite Et in E. cbn [p_th mt] in E. lia.
  - exfalso. specialize (Hs i Et). unfold updp in Hs. rewrite Nat.eqb_refl in Hs. apply (f_equal p_closed) in Hs. cbn in Hs. congruence.
Qed.

Lemma moves_fresh K n x y : fresh_from K x -> moves n x y -> fresh_from K y.
Proof. intros F H. induction H as [|n x y z H IH Mv]; [exact F|]. eapply fresh_move; [apply IH; exact F|exact Mv]. Qed.
Lemma moves_bound K n x y : nsteps start x -> fresh_from K x -> moves n x y -> (n + nw K y <= nw K x)%nat.
Proof.
  intros R F H. induction H as [|n x y z H IH Mv]; [lia|]. specialize (IH R F).
  pose proof (move_dec K y z (nsteps_trans srv prog _ _ _ R (moves_nsteps _ _ _ H)) (moves_fresh K _ _ _ F H) Mv). lia.
Qed.
(** Before a call is started or a connection closed, only so much can happen. *)
Lemma moves_finite x : nsteps start x -> exists B, forall n y, moves n x y -> (n <= B)%nat.
Proof.
  intros R. destruct (fresh_nsteps x R) as (K & F). exists (nw K x). intros n y H. pose proof (moves_bound K n x y R F H). lia.
Qed.
Lemma peer_move x y i q t : move x y -> p_th (snd x i) = Some (q, t) ->
  p_done (snd y i) = p_done (snd x i) /\ (exists t', p_th (snd y i) = Some (q, t')) \/ exists v e, p_done (snd y i) = p_done (snd x i) ++ [(q, v, e)] /\ p_th (snd y i) = None.
Proof.
  intros [S _] Et. destruct S as [c c2 f S Hcl|c f j q0 Et0 Ec Ep|c f j q0 t0 cs rest n c1 s1 t1 ds Et0 Hnd Hr Hcs Hw Hst Hds Hcat|c f j q0 v e Et0|c f j Et0 Ec]; cbn [fst snd] in *;
    [left; eauto| | | |]; unfold updp; destruct (Nat.eqb_spec i j) as [->|]; try (left; eauto; fail); try congruence.
  - left. split; [reflexivity|]. cbn. assert (q0 = q) by congruence. subst. eauto.
  - right. assert (q0 = q) by congruence. subst. exists v, e. split; reflexivity.
Qed.
(** A call under way can be brought to its end. *)
Lemma can_return x i q t : nsteps start x -> p_th (snd x i) = Some (q, t) -> k_broken (c_conns (fst x) i) = false ->
  exists n y v e, moves n x y /\ p_th (snd y i) = None /\ p_done (snd y i) = p_done (snd x i) ++ [(q, v, e)] /\
    forall j, k_broken (c_conns (fst y) j) = k_broken (c_conns (fst x) j).
Proof.
  intros R Et Hb. destruct (fresh_nsteps x R) as (K & F).
  assert (X : forall d n x1 t1, moves n x x1 -> p_th (snd x1 i) = Some (q, t1) -> p_done (snd x1 i) = p_done (snd x i) -> (forall j, k_broken (c_conns (fst x1) j) = k_broken (c_conns (fst x) j)) -> (nw K x1 <= d)%nat ->
    exists n y v e, moves n x y /\ p_th (snd y i) = None /\ p_done (snd y i) = p_done (snd x i) ++ [(q, v, e)] /\ forall j, k_broken (c_conns (fst y) j) = k_broken (c_conns (fst x) j)).
  { induction d as [|d IH]; intros n x1 t1 H Et1 Ed Eb Hd; pose proof (nsteps_trans srv prog _ _ _ R (moves_nsteps _ _ _ H)) as R1; destruct (progress x1 i q t1 R1 Et1 (eq_trans (Eb i) Hb)) as (y & Mv & _ & Hk);
      pose proof (move_dec K x1 y R1 (moves_fresh K _ _ _ F H) Mv) as Hlt; [lia|].
    pose proof (moves_S _ _ _ _ _ _ H Mv) as H'. destruct (peer_move x1 y i q t1 Mv Et1) as [(E1 & t' & E2)|(v & e & E1 & E2)].
    - apply (IH (S n) y t' H' E2); [congruence|intros j; rewrite Hk; apply Eb|lia].
    - exists (S n), y, v, e. split; [exact H'|]. split; [exact E2|]. split; [rewrite E1, Ed; reflexivity|]. intros j. rewrite Hk. apply Eb. }
  eapply (X (nw K x) 0%nat x t); [constructor|exact Et|reflexivity|reflexivity|lia].
Qed.
Lemma moves_idle n x y i : moves n x y -> p_th (snd x i) = None -> snd y i = snd x i.
Proof. intros H E. induction H as [|n x y z H IH [_ Mv]]; [reflexivity|]. specialize (IH E). rewrite <- IH. apply Mv. rewrite IH. exact E. Qed.
End Live.
