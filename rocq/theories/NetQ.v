(** Invariant of clients and concurrent server together. *)
From Coq Require Import Permutation.
From Verif Require Import Bytes XdrLib Types Interp Spec Meta Runs RpcTypes RpcSpec RpcWire RpcDec Io Client CallSpec ClientP CliConc
  Server ServSpec ServerP ServerQ ServerX Heap HeapP HeapQ Conc ConcP ConcQ ConcR Net NetP.
Open Scope string_scope.
Open Scope Z_scope.
Open Scope list_scope.
Notation small := (fun m : list byte => zlen m < 2 ^ 31).

Lemma nth_snoc {A} (l : list A) x j y : nth_error (l ++ [x]) j = Some y ->
  nth_error l j = Some y \/ j = List.length l /\ y = x.
Proof.
  intros H. destruct (Nat.lt_ge_cases j (List.length l)) as [K|K].
  - rewrite nth_error_app1 in H by exact K. auto.
  - rewrite nth_error_app2 in H by exact K. right. destruct (j - List.length l)%nat as [|n] eqn:E; cbn in H.
    + injection H as <-. split; [lia|reflexivity].
    + destruct n; discriminate.
Qed.
Lemma nth_at {A} (l : list A) x : nth_error (l ++ [x]) (List.length l) = Some x.
Proof. rewrite nth_error_app2, Nat.sub_diag by lia. reflexivity. Qed.
Lemma nth_keep {A} (l l' : list A) j y : nth_error l j = Some y -> nth_error (l ++ l') j = Some y.
Proof. intros H. rewrite nth_error_app1; [exact H|]. apply nth_error_Some. congruence. Qed.
Lemma skipn_len {A} (a b : list A) n : List.length a = n -> skipn n (a ++ b) = b.
Proof. intros <-. rewrite skipn_app, Nat.sub_diag, skipn_all. reflexivity. Qed.
Lemma records_snoc ms m : List.concat (map record (ms ++ [m])) = List.concat (map record ms) ++ record m.
Proof. rewrite map_app, concat_app. cbn. rewrite app_nil_r. reflexivity. Qed.

Lemma NoDup_app_in {A} (l l' : list A) : NoDup (l ++ l') -> forall x, In x l -> ~ In x l'.
Proof.
  induction l as [|y l IH]; intros H x [].
  - subst. inversion H; subst. intros K. apply H2. apply in_or_app. auto.
  - inversion H; subst. apply IH; assumption.
Qed.

Lemma tsend_inj {L} (a b : list byte) : @TsEnd L (Some a) = TsEnd (Some b) -> a = b.
Proof. intros H. injection H as H. exact H. Qed.

Section Inv.
Context {W : Type}.
Variable srv : nat -> server W.
Variable regs : nat -> list (registration W).
Hypothesis srv_ok : forall i, reach (srv i) (regs i) /\ regs_ok (regs i).
Variable prog : nat -> list result -> option callreq.
Variable cl : nat -> client.
Hypothesis cl_ok : forall i, client_ok (cl i).
Hypothesis prog_ok : calls_ok srv prog cl.
Variables (h0 : heap) (w0 : W).
Notation steps := (steps tt (reply_step srv)).

Lemma after_ok i j : client_ok (after (cl i) j).
Proof. induction j as [|j IH]; [apply cl_ok|]. cbn. apply incr_ok. exact IH. Qed.
Lemma after_prog i j : cl_prog (after (cl i) j) = cl_prog (cl i) /\ cl_vers (after (cl i) j) = cl_vers (cl i).
Proof. induction j as [|j IH]; [auto|exact IH]. Qed.

Definition told (hi : list (event W unit)) (i j : nat) (r : list byte) : Prop := In (i, j, Some (record r)) (map entry hi).
Definition rlen (reps : list (list byte)) : nat := List.length (List.concat (map record reps)).

(** A message client [i] sent as number [j]. *)
Definition asked (i j : nat) (q : callreq) (m : list byte) : Prop :=
  request (xid_of (cl i) j) (cl_prog (cl i)) (cl_vers (cl i)) q m /\ zlen m < 2 ^ 31 /\
  forall w w' rep, sends (srv i) w m w' rep -> zlen rep < 2 ^ 31.

(** Where the call is, in terms of messages sent [ms], replies read [reps] and bytes received [rv]. *)
Definition tinv (rv : list byte) (i : nat) (x : peer) (ms reps : list (list byte)) : Prop :=
  let d := List.length (p_done x) in
  match p_th x with
  | None => List.length ms = d /\ List.length reps = d /\ p_pos x = rlen reps /\ p_cl x = after (cl i) d
  | Some (q, t) => prog i (p_done x) = Some q /\ p_closed x = false /\
      match t with
      | TStart q' => q' = q /\ List.length ms = d /\ List.length reps = d /\ p_pos x = rlen reps /\ p_cl x = after (cl i) d
      | TInc q' => q' = q /\ List.length ms = d /\ List.length reps = d /\ p_pos x = rlen reps /\ p_cl x = after (cl i) (S d)
      | TSend q' w => q' = q /\ List.length ms = d /\ List.length reps = d /\ p_pos x = rlen reps /\ p_cl x = after (cl i) (S d) /\
          asked i d q w
      | TRead true q' k acc => q' = q /\ List.length ms = S d /\ List.length reps = d /\ p_cl x = after (cl i) (S d) /\
          (k + List.length acc = 4)%nat /\ p_pos x = (rlen reps + List.length acc)%nat /\
          exists rest, rv = List.concat (map record reps) ++ acc ++ rest
      | TRead false q' k acc => q' = q /\ List.length ms = S d /\ List.length reps = d /\ p_cl x = after (cl i) (S d) /\
          exists hdr rest, List.length hdr = 4%nat /\ Z.land (get_u32 hdr) (2 ^ 31) <> 0 /\
          (k + List.length acc = Z.to_nat (Z.land (get_u32 hdr) 2147483647))%nat /\
          p_pos x = (rlen reps + 4 + List.length acc)%nat /\ rv = List.concat (map record reps) ++ hdr ++ acc ++ rest
      | TCheck q' b => q' = q /\ List.length ms = S d /\ List.length reps = S d /\ p_cl x = after (cl i) (S d) /\
          p_pos x = rlen reps /\ nth_error reps d = Some b
      | TDone v e => List.length ms = S d /\ List.length reps = S d /\ p_cl x = after (cl i) (S d) /\
          p_pos x = rlen reps /\ exists b, nth_error reps d = Some b /\ reply_outcome (xid_of (cl i) d) b (rq_resp q) v e
      | TCrash => False
      end
  end.

Record pinv (hi : list (event W unit)) (rv : list byte) (i : nat) (x : peer) (ms reps : list (list byte)) : Prop := mkPinv {
  pi_ms : forall j m, nth_error ms j = Some m -> exists q, nth_call x j q /\ asked i j q m;
  pi_reps : forall j r, nth_error reps j = Some r -> zlen r < 2 ^ 31 /\ told hi i j r;
  pi_recv : exists rest, rv = List.concat (map record reps) ++ rest;
  pi_done : forall j q v e, nth_error (p_done x) j = Some (q, v, e) -> prog i (firstn j (p_done x)) = Some q /\
    exists r, nth_error reps j = Some r /\ reply_outcome (xid_of (cl i) j) r (rq_resp q) v e;
  pi_th : tinv rv i x ms reps }.

Lemma pinv_mono hi rv i x ms reps hi' rv' : pinv hi rv i x ms reps -> pinv (hi ++ hi') (rv ++ rv') i x ms reps.
Proof.
  intros [P1 P2 (rest & P3) P4 P5]. split; auto.
  - intros j r H. destruct (P2 j r H) as [Q1 Q2]. split; [exact Q1|]. unfold told. rewrite map_app. apply in_or_app. auto.
  - exists (rest ++ rv'). rewrite P3, <- app_assoc. reflexivity.
  - unfold tinv in *. destruct (p_th x) as [[q t]|]; [|exact P5]. destruct P5 as (A & B & P5). split; [exact A|]. split; [exact B|].
    destruct t as [q'|q'|q' w|[|] q' k acc|q' b|v e|]; auto.
    + destruct P5 as (H1 & H2 & H3 & H4 & H5 & H6 & r & ->). repeat (split; [assumption|]). exists (r ++ rv'). rewrite <- !app_assoc. reflexivity.
    + destruct P5 as (H1 & H2 & H3 & H4 & hdr & r & H5 & H6 & H7 & H8 & ->). repeat (split; [assumption|]).
      exists hdr, (r ++ rv'). repeat (split; [assumption|]). rewrite <- !app_assoc. reflexivity.
Qed.

Lemma pinv_len hi rv i x ms reps : pinv hi rv i x ms reps -> (List.length ms <= S (List.length reps))%nat.
Proof.
  intros [_ _ _ _ P]. unfold tinv in P. destruct (p_th x) as [[q t]|]; [|lia]. destruct P as (_ & _ & P).
  destruct t as [q'|q'|q' w|[|] q' k acc|q' b|v e|]; lia || tauto.
Qed.
Lemma pinv_small hi rv i x ms reps : pinv hi rv i x ms reps -> Forall small ms /\ Forall small reps /\
  Forall (fun m => forall w w' rep, sends (srv i) w m w' rep -> zlen rep < 2 ^ 31) ms.
Proof.
  intros P. split; [|split]; apply Forall_forall; intros m H; apply In_nth_error in H; destruct H as (j & H).
  - destruct (pi_ms _ _ _ _ _ _ P j m H) as (q & _ & _ & K & _). exact K.
  - apply (pi_reps _ _ _ _ _ _ P j m H).
  - destruct (pi_ms _ _ _ _ _ _ P j m H) as (q & _ & _ & _ & K). exact K.
Qed.

(** ** The server's side *)
Section Server.
Variables (ins : nat -> list (list byte) * ioerr) (c : cfg W unit).
Hypothesis ins_ok : forall i, chunks_ok (fst (ins i)).
Hypothesis reached : steps (init h0 ins w0) c.
Variables (i : nat) (ms : list (list byte)).
Hypothesis sent : List.concat (fst (ins i)) = List.concat (map record ms).
Hypothesis ms_small : Forall small ms.
Hypothesis ms_ans : Forall (fun m => forall w w' rep, sends (srv i) w m w' rep -> zlen rep < 2 ^ 31) ms.
Notation k := (c_conns c i).

Lemma reqs_prefix : exists ms', ms = k_reqs k ++ ms'.
Proof.
  destruct (c40_inputs tt _ _ _ _ ins_ok _ reached i) as (rest & E & Hs & _). rewrite sent in E.
  destruct (Nat.le_ge_cases (List.length (k_reqs k)) (List.length ms)) as [K|K].
  - rewrite <- (app_nil_r (List.concat (map record ms))) in E.
    destruct (records_prefix _ _ _ _ Hs ms_small K (eq_sym E)) as (ms' & H & _). eauto.
  - rewrite <- (app_nil_r (List.concat (map record ms))) in E.
    destruct (records_prefix _ _ _ _ ms_small Hs K E) as (b & H & H').
    destruct b as [|b bs]; [exists []; rewrite app_nil_r in *; auto|]. cbn [map List.concat] in H'. rewrite <- app_assoc in H'. symmetry in H'.
    exfalso. exact (record_nonnil _ _ H').
Qed.
Lemma reply_small req w w' rep : In req (k_reqs k) -> sends (srv i) w req w' rep -> zlen rep < 2 ^ 31.
Proof.
  intros H. destruct reqs_prefix as (ms' & E). assert (K : In req ms) by (rewrite E; apply in_or_app; auto).
  rewrite Forall_forall in ms_ans. exact (ms_ans req K w w' rep).
Qed.
Lemma outs_records : exists os, map snd (k_out k) = map record os /\ Forall small os.
Proof.
  assert (H : Forall (fun o => exists r, snd o = record r /\ zlen r < 2 ^ 31) (k_out k)).
  { apply Forall_forall. intros [j rec] Hin. destruct (c42_out srv regs srv_ok _ _ _ ins_ok _ reached _ _ _ Hin) as (req & w & w' & rep & Hn & Hs & ->).
    apply nth_error_In in Hn. pose proof (reply_small _ _ _ _ Hn Hs). exists rep. cbn. rewrite mark_record by assumption. auto. }
  induction H as [|o l (r & E & Hr) _ (os & E2 & Hos)]; [exists []; auto|]. exists (r :: os). cbn. rewrite E, E2. auto.
Qed.
Lemma in_serial reqs tr w i' j rec : serial srv reqs w0 tr w -> In (i', j, Some rec) tr ->
  exists req w1 w2 rep, nth_error (reqs i') j = Some req /\ sends (srv i') w1 req w2 rep /\ rec = mark (zlen rep) ++ rep.
Proof.
  induction 1 as [|tr w i0 j0 req w' rep _ IH Hn Hs|tr w i0 j0 req w' _ IH Hn Hs]; intros Hin; [destruct Hin| |];
    apply in_app_or in Hin; destruct Hin as [Hin|[Hin|[]]]; auto; [|discriminate].
  injection Hin as -> -> <-. eauto 10.
Qed.
Lemma part_record : k_part k = [] \/ exists j r x, In j (k_fail k) /\ told (c_hist c) i j r /\ zlen r < 2 ^ 31 /\ record r = k_part k ++ x.
Proof.
  destruct (all_reach tt _ _ _ _ _ ins_ok reached) as (_ & _ & _ & H).
  destruct (h_part _ _ _ _ H i) as [E|(j & rq & ow & rec & x & Hi & Hn & Ht & Hx)]; [auto|]. right.
  apply thread_reply with (regs := regs) in Ht; [|exact srv_ok].
  destruct Ht as [[_ E]|[(w & w' & rep & E & Hs & Eo)|(w & w' & E & _ & Eo)]]; [discriminate| |discriminate].
  injection Eo as ->. apply in_entry in E. cbn [rec_of] in E. apply nth_error_In in Hn. pose proof (reply_small _ _ _ _ Hn Hs) as Hz.
  rewrite mark_record in * by exact Hz. exists j, rep, x. auto.
Qed.

Hypothesis ord : map fst (k_out k) = seq 0 (List.length (k_out k)).
Variable reps : list (list byte).
Hypothesis reps_small : Forall small reps.
Hypothesis reps_len : (List.length ms <= S (List.length reps))%nat.

(** A whole record read after the replies [reps] answers the next request. *)
Lemma read_one b rest : received k = List.concat (map record (reps ++ [b])) ++ rest -> zlen b < 2 ^ 31 -> told (c_hist c) i (List.length reps) b.
Proof.
  intros Hrv Hb. destruct outs_records as (os & Eo & Hos).
  assert (Hlen : List.length (k_out k) = List.length os) by (apply (f_equal (@List.length _)) in Eo; rewrite !map_length in Eo; exact Eo).
  unfold received in Hrv. rewrite Eo in Hrv.
  assert (Hrb : Forall small (reps ++ [b])) by (apply Forall_app; auto).
  destruct (le_lt_dec (List.length (reps ++ [b])) (List.length os)) as [K|K].
  - destruct (records_prefix _ _ _ _ Hrb Hos K (eq_sym Hrv)) as (b' & -> & _).
    assert (Hn : nth_error (map snd (k_out k)) (List.length reps) = Some (record b)).
    { rewrite Eo. apply map_nth_error. rewrite <- app_assoc. rewrite nth_error_app2, Nat.sub_diag by lia. reflexivity. }
    rewrite nth_error_map in Hn. destruct (nth_error (k_out k) (List.length reps)) as [[j rec]|] eqn:En; [|discriminate]. cbn in Hn. injection Hn as ->.
    assert (Hj : nth_error (map fst (k_out k)) (List.length reps) = Some j) by (rewrite nth_error_map, En; reflexivity).
    rewrite ord in Hj. rewrite !app_length in *. cbn in K. 
    assert (Hs : nth_error (seq 0 (List.length (k_out k))) (List.length reps) = Some (List.length reps)).
    { rewrite nth_error_nth' with (d := 0%nat) by (rewrite seq_length, Hlen; cbn; lia). rewrite seq_nth by (rewrite Hlen; cbn; lia). reflexivity. }
    rewrite Hs in Hj. injection Hj as <-. apply nth_error_In in En.
    destruct (all_reach tt _ _ _ _ _ ins_ok reached) as (_ & _ & _ & H).
    destruct (h_out _ _ _ _ H i _ _ En) as (rq & ow & _ & Ht). apply thread_reply with (regs := regs) in Ht; [|exact srv_ok].
    destruct Ht as [[_ E]|[(w & w' & rep & E & Hs' & Eo')|(w & w' & E & _ & Eo')]]; [discriminate| |discriminate].
    apply tsend_inj in Eo'. rename Eo' into Er. apply in_entry in E. cbn [rec_of] in E. unfold told. rewrite Er. exact E.
  - destruct (records_prefix _ _ _ _ Hos Hrb (Nat.lt_le_incl _ _ K) Hrv) as (b' & E1 & E2).
    destruct b' as [|b1 b']; [rewrite app_nil_r in E1; rewrite E1 in K; lia|]. cbn [map List.concat] in E2. rewrite <- app_assoc in E2.
    destruct part_record as [Ep|(j & r & x & Hj & Ht & Hr & Ex)].
    { rewrite Ep in E2. symmetry in E2. exfalso. exact (record_nonnil _ _ E2). }
    rewrite E2, <- app_assoc in Ex. rewrite <- (app_nil_r (record r)) in Ex.
    assert (Hb1 : zlen b1 < 2 ^ 31). { rewrite E1 in Hrb. apply Forall_app in Hrb. destruct Hrb as [_ Hrb]. inversion Hrb; assumption. }
    apply record_inj in Ex; [|exact Hr|exact Hb1]. destruct Ex as [-> Ex]. symmetry in Ex. apply app_eq_nil in Ex. destruct Ex as [Ex _].
    destruct b' as [|b2 b']; [|cbn [map List.concat] in Ex; rewrite <- app_assoc in Ex; exfalso; exact (record_nonnil _ _ Ex)].
    apply app_inj_tail in E1. destruct E1 as [-> ->].
    assert (Hj' : j = List.length os).
    { destruct (c42_account tt _ _ _ _ ins_ok _ reached i) as (_ & _ & P). destruct reqs_prefix as (ms' & Em).
      assert (Hlt : (j < List.length (k_reqs k))%nat).
      { assert (Hin : In j (seq 0 (List.length (k_reqs k)))) by (eapply Permutation_in; [exact P|]; rewrite !in_app_iff; auto).
        apply in_seq in Hin. lia. }
      assert (Hni : ~ In j (seq 0 (List.length (k_out k)))).
      { rewrite <- ord. assert (ND : NoDup (map fst (k_out k) ++ k_quiet k ++ k_fail k ++ map (@tk_id unit) (filter (active i) (c_tasks c)))).
        { eapply Permutation_NoDup; [symmetry; exact P|apply seq_NoDup]. }
        intros Hin. apply (NoDup_app_in _ _ ND j Hin). rewrite !in_app_iff. auto. }
      rewrite in_seq, Hlen in Hni. rewrite Em, app_length in reps_len. cbn [Nat.add] in Hni. lia. }
    rewrite <- Hj'. exact Ht.
Qed.

(** What follows the replies [reps] begins with the mark of a last fragment. *)
Lemma flag_set r x acc y : zlen r < 2 ^ 31 -> record r ++ x = acc ++ y -> List.length acc = 4%nat -> Z.land (get_u32 acc) (2 ^ 31) <> 0.
Proof.
  intros Hr H Hl. unfold record in H. rewrite <- app_assoc in H. apply app4 in H; [|apply be4_len|exact Hl]. destruct H as [<- _].
  destruct (hdr_u32 (be4 (2 ^ 31 + zlen r)) (be4_len _)) as [Eg Hu]. rewrite Eg. pose proof (last_frag _ Hu) as F. pose proof (zlen_nonneg r).
  rewrite be4_val in * by (unfold u32; lia). intros E. rewrite E in F. change (0 =? 0) with true in F. symmetry in F. apply Z.ltb_lt in F. lia.
Qed.
Lemma read_hdr acc rest : received k = List.concat (map record reps) ++ acc ++ rest -> List.length acc = 4%nat -> Z.land (get_u32 acc) (2 ^ 31) <> 0.
Proof.
  intros Hrv Ha. destruct outs_records as (os & Eo & Hos). unfold received in Hrv. rewrite Eo in Hrv.
  destruct (le_lt_dec (List.length reps) (List.length os)) as [K|K].
  - destruct (records_prefix _ _ _ _ reps_small Hos K (eq_sym Hrv)) as (b' & E1 & E2). destruct b' as [|b1 b'].
    + cbn [map List.concat app] in E2. destruct part_record as [Ep|(j & r & x & Hj & Ht & Hr & Ex)].
      { rewrite Ep in E2. destruct acc; [cbn in Ha; lia|discriminate]. }
      apply (flag_set r [] acc (rest ++ x) Hr); [|exact Ha]. rewrite app_nil_r, Ex, <- E2, <- app_assoc. reflexivity.
    + cbn [map List.concat] in E2. rewrite <- app_assoc in E2. rewrite E1 in Hos. apply Forall_app in Hos. destruct Hos as [_ Hos]. inversion Hos; subst.
      eapply flag_set; [eassumption|symmetry; exact E2|exact Ha].
  - destruct (records_prefix _ _ _ _ Hos reps_small (Nat.lt_le_incl _ _ K) Hrv) as (b' & E1 & E2).
    destruct b' as [|b1 b']; [rewrite app_nil_r in E1; rewrite E1 in K; lia|]. cbn [map List.concat] in E2. rewrite <- app_assoc in E2.
    destruct part_record as [Ep|(j & r & x & Hj & Ht & Hr & Ex)].
    { rewrite Ep in E2. symmetry in E2. exfalso. exact (record_nonnil _ _ E2). }
    rewrite E2, <- app_assoc in Ex. rewrite <- (app_nil_r (record r)) in Ex.
    assert (Hb1 : zlen b1 < 2 ^ 31). { pose proof reps_small as Hrb. rewrite E1 in Hrb. apply Forall_app in Hrb. destruct Hrb as [_ Hrb]. inversion Hrb; assumption. }
    apply record_inj in Ex; [|exact Hr|exact Hb1]. destruct Ex as [_ Ex]. symmetry in Ex. apply app_eq_nil in Ex. destruct Ex as [Ex _].
    apply app_eq_nil in Ex. destruct Ex as [_ Ex]. apply app_eq_nil in Ex. destruct Ex as [-> _]. discriminate Ha.
Qed.

(** Replies are written in the order of the requests. *)
Lemma got_outs : (exists rest, received k = List.concat (map record reps) ++ rest) -> k_broken k = false -> (List.length reps <= List.length (k_out k))%nat.
Proof.
  intros (rest & Hrv) Hb. destruct outs_records as (os & Eo & Hos).
  assert (Hlen : List.length (k_out k) = List.length os) by (apply (f_equal (@List.length _)) in Eo; rewrite !map_length in Eo; exact Eo).
  destruct (c42_account tt _ _ _ _ ins_ok _ reached i) as (_ & Q & _). destruct (Q Hb) as [Ep _].
  unfold received in Hrv. rewrite Eo, Ep in Hrv. rewrite Hlen. destruct (le_lt_dec (List.length reps) (List.length os)) as [K|K]; [exact K|].
  destruct (records_prefix _ _ _ _ Hos reps_small (Nat.lt_le_incl _ _ K) Hrv) as (b' & E1 & E2).
  destruct b' as [|b1 b']; [rewrite app_nil_r in E1; rewrite E1 in K; lia|]. cbn [map List.concat] in E2. rewrite <- app_assoc in E2.
  symmetry in E2. exfalso. exact (record_nonnil _ _ E2).
Qed.
End Server.

(** ** A client's step *)
Lemma rlen_snoc reps b : rlen (reps ++ [b]) = (rlen reps + 4 + List.length b)%nat.
Proof. unfold rlen. rewrite records_snoc, app_length. replace (List.length (record b)) with (4 + List.length b)%nat; [lia|]. unfold record. rewrite app_length, be4_len. reflexivity. Qed.

Lemma nth_call_th x j q q' t t' c' pos' : nth_call x j q -> p_th x = Some (q', t) ->
  nth_call (mkPeer c' (Some (q', t')) pos' (p_done x) (p_closed x)) j q.
Proof.
  intros [H|(E & t0 & H)] Ht; [left; exact H|]. right. split; [exact E|]. cbn. rewrite Ht in H. injection H as -> ->. eauto.
Qed.

Lemma cli_step hi rv i x ms reps q t cs rest N c1 s1 t1 :
  pinv hi rv i x ms reps -> p_th x = Some (q, t) ->
  (forall b rest, rv = List.concat (map record (reps ++ [b])) ++ rest -> zlen b < 2 ^ 31 -> told hi i (List.length reps) b) ->
  (forall acc rest, rv = List.concat (map record reps) ++ acc ++ rest -> List.length acc = 4%nat -> Z.land (get_u32 acc) (2 ^ 31) <> 0) ->
  skipn (p_pos x) rv = List.concat cs ++ rest -> chunks_ok cs -> (waiting t -> cs <> []) ->
  (forall n, (N <= n)%nat -> tstep n stream_conn (p_cl x) (mkStream cs EOF []) t = (c1, s1, t1)) ->
  exists ms' reps', (ms' = ms /\ List.concat (si_out s1) = [] \/ exists m, ms' = ms ++ [m] /\ List.concat (si_out s1) = record m) /\
    pinv hi rv i (mkPeer c1 (Some (q, t1)) (p_pos x + (List.length (List.concat cs) - List.length (List.concat (si_in s1)))) (p_done x) (p_closed x)) ms' reps'.
Proof.
  intros P Et Hread Hhdr Hrest Hcs Hw Hstep. pose proof P as [P1 P2 P3 P4 P5]. unfold tinv in P5. rewrite Et in P5. destruct P5 as (Hp & Hcl & P5).
  destruct (prog_ok i _ _ Hp) as (Hq & He & Hm). set (d := List.length (p_done x)) in *.
  assert (S0 : forall f ms', (ms' = ms \/ exists m, ms' = ms ++ [m] /\ asked i d q m /\ List.length ms = d) ->
    forall j m, nth_error ms' j = Some m -> exists q0, nth_call (mkPeer c1 (Some (q, t1)) f (p_done x) (p_closed x)) j q0 /\ asked i j q0 m).
  { intros f ms' [->|(m & -> & Ha & Hl)] j m' Hj.
    - destruct (P1 j m' Hj) as (q0 & A & B). exists q0. split; [|exact B]. eapply nth_call_th; eassumption.
    - apply nth_snoc in Hj. destruct Hj as [Hj|[-> ->]].
      + destruct (P1 j m' Hj) as (q0 & A & B). exists q0. split; [|exact B]. eapply nth_call_th; eassumption.
      + exists q. rewrite Hl. split; [|exact Ha]. right. split; [reflexivity|]. cbn. eauto. }
  assert (Z0 : forall l : list (list byte), (p_pos x + (List.length (List.concat l) - List.length (List.concat l)) = p_pos x)%nat) by (intros; lia).
  destruct t as [q'|q'|q' w|hdr q' k acc|q' b|v e|]; [| | | | | |destruct P5].
  - destruct P5 as (-> & L1 & L2 & L3 & L4). specialize (Hstep N (le_n _)). cbn [tstep] in Hstep. injection Hstep as <- <- <-. cbn [si_in si_out]. rewrite Z0.
    exists ms, reps. split; [auto|]. split; [apply S0; auto|exact P2|exact P3|exact P4|]. unfold tinv. cbn. fold d. repeat (split; [assumption||reflexivity|]). rewrite L4. reflexivity.
  - destruct P5 as (-> & L1 & L2 & L3 & L4).
    destruct (call_request_spec (p_cl x) q ltac:(rewrite L4; apply after_ok) Hq) as (N' & [[_ (msg & Hr & Hc)]|[Hn _]]); [|contradiction].
    specialize (Hstep (N + N')%nat ltac:(lia)). cbn [tstep] in Hstep. rewrite Hc in Hstep by lia. injection Hstep as <- <- <-. cbn [si_in si_out]. rewrite Z0.
    assert (Ha : asked i d q msg).
    { rewrite L4 in Hr. destruct (after_prog i (S d)) as [E1 E2]. rewrite E1, E2 in Hr. split; [exact Hr|]. apply Hm. exact Hr. }
    exists ms, reps. split; [auto|]. split; [apply S0; auto|exact P2|exact P3|exact P4|]. unfold tinv. cbn [p_th p_done p_closed p_pos p_cl]. fold d. repeat (split; [assumption||reflexivity|]). exact Ha.
  - destruct P5 as (-> & L1 & L2 & L3 & L4 & Ha). specialize (Hstep N (le_n _)). cbn [tstep stream_conn c_write] in Hstep.
    apply pair_equal_spec in Hstep. destruct Hstep as [Hstep <-]. apply pair_equal_spec in Hstep. destruct Hstep as [<- <-].
    cbn [si_in si_out app List.concat]. rewrite Z0. exists (ms ++ [w]), reps. split.
    { right. exists w. split; [reflexivity|]. rewrite app_nil_r, mark_eq. apply mark_record. apply Ha. }
    destruct P3 as (r0 & P3). split; [apply S0; right; exists w; auto|exact P2|eauto|exact P4|]. unfold tinv. cbn [p_th p_done p_closed p_pos p_cl]. fold d.
    rewrite app_length. cbn [List.length]. repeat (split; [assumption||reflexivity||lia|]). exists r0. exact P3.
  - destruct k as [|k].
    + specialize (Hstep N (le_n _)). cbn [tstep] in Hstep. destruct hdr.
      * destruct P5 as (-> & L1 & L2 & L3 & L4 & L5 & r0 & L6). cbn [Nat.add] in L4.
        destruct (Z.eqb_spec (Z.land (get_u32 acc) (2 ^ 31)) 0) as [E0|E0].
        { exfalso. exact (Hhdr acc r0 L6 L4 E0). }
        injection Hstep as <- <- <-. cbn [si_in si_out]. rewrite Z0. exists ms, reps. split; [auto|]. split; [apply S0; auto|exact P2|exact P3|exact P4|].
        unfold tinv. cbn [p_th p_done p_closed p_pos p_cl]. fold d. repeat (split; [assumption||reflexivity||lia|]).
        exists acc, r0. cbn [List.length app]. repeat (split; [assumption||reflexivity||lia|]). exact L6.
      * destruct P5 as (-> & L1 & L2 & L3 & hdr & r0 & L4 & L5 & L6 & L7 & L8). cbn [Nat.add] in L6.
        injection Hstep as <- <- <-. cbn [si_in si_out]. rewrite Z0.
        destruct (hdr_val hdr L4 L5) as [V1 V2]. assert (Hz : zlen acc = Z.land (get_u32 hdr) 2147483647) by (unfold zlen; lia).
        assert (Hrv : rv = List.concat (map record (reps ++ [acc])) ++ r0).
        { rewrite L8, records_snoc, <- !app_assoc. f_equal. unfold record at 1. rewrite Hz, <- V2, <- app_assoc. reflexivity. }
        pose proof (Hread acc r0 Hrv ltac:(lia)) as Ht.
        exists ms, (reps ++ [acc]). split; [auto|]. split; [apply S0; auto| |eauto| |].
        { intros j r Hj. apply nth_snoc in Hj. destruct Hj as [Hj|[-> ->]]; [apply P2; exact Hj|]. split; [lia|exact Ht]. }
        { intros j q0 v e Hj. destruct (P4 j q0 v e Hj) as (A & r & B & C). split; [exact A|]. exists r. split; [apply nth_keep; exact B|exact C]. }
        unfold tinv. cbn [p_th p_done p_closed p_pos p_cl]. fold d. rewrite app_length, rlen_snoc. cbn [List.length].
        repeat (split; [assumption||reflexivity||lia|]). rewrite <- L2. apply nth_at.
    + specialize (Hw I). destruct cs as [|c0 cs]; [congruence|]. specialize (Hstep N (le_n _)). cbn [tstep stream_conn c_read] in Hstep.
      destruct (stream_read (mkStream (c0 :: cs) EOF []) (S k)) as [[s2 d2] e2] eqn:Er.
      assert (e2 = None) as ->. { unfold stream_read in Er. cbn [si_in] in Er. destruct (Nat.leb _ _); injection Er as _ _ <-; reflexivity. }
      pose proof (stream_read_len _ _ _ _ _ Er) as Hd2. destruct (sr_ok (mkStream (c0 :: cs) EOF []) _ _ _ Hcs Er) as [Hcs2 Hcat]. cbn [si_in] in Hcat.
      destruct (Nat.ltb_spec (S k) (List.length d2)) as [Hlt|_]; [lia|].
      apply pair_equal_spec in Hstep. destruct Hstep as [Hstep <-]. apply pair_equal_spec in Hstep. destruct Hstep as [<- <-].
      assert (Hout : si_out s2 = []). { unfold stream_read in Er. cbn [si_in si_end si_out] in Er. destruct (Nat.leb _ _); injection Er as <- _; reflexivity. }
      rewrite Hout. rewrite Hcat in Hrest |- *. rewrite app_length.
      replace (p_pos x + (List.length d2 + List.length (List.concat (si_in s2)) - List.length (List.concat (si_in s2))))%nat with (p_pos x + List.length d2)%nat by lia.
      exists ms, reps. split; [auto|]. split; [apply S0; auto|exact P2|exact P3|exact P4|].
      unfold tinv. cbn [p_th p_done p_closed p_pos p_cl]. fold d. split; [exact Hp|]. split; [exact Hcl|]. destruct hdr.
      * destruct P5 as (-> & L1 & L2 & L3 & L4 & L5 & r0 & L6). rewrite app_length. repeat (split; [assumption||reflexivity||lia|]).
        exists (List.concat (si_in s2) ++ rest). rewrite L6, app_assoc, skipn_len in Hrest by (rewrite app_length; fold (rlen reps); lia).
        rewrite L6, Hrest, <- !app_assoc. reflexivity.
      * destruct P5 as (-> & L1 & L2 & L3 & hdr & r0 & L4 & L5 & L6 & L7 & L8). rewrite app_length. repeat (split; [assumption||reflexivity||lia|]).
        exists hdr, (List.concat (si_in s2) ++ rest). repeat (split; [assumption||reflexivity||lia|]).
        rewrite L8, !app_assoc, skipn_len in Hrest by (rewrite !app_length; fold (rlen reps); lia).
        rewrite L8, Hrest, <- !app_assoc. reflexivity.
  - destruct P5 as (-> & L1 & L2 & L3 & L4 & L5). destruct Hq as (Hq1 & Hq2 & Hq3 & Hq4 & Hq5).
    destruct (call_reply_spec (cl_xid (p_cl x)) b (rq_resp q)) as (N' & v & e & Ho & Hc).
    { rewrite L3. apply after_ok. } { exact Hq5. }
    specialize (Hstep (N + N')%nat ltac:(lia)). cbn [tstep] in Hstep. rewrite Hc in Hstep by lia. injection Hstep as <- <- <-. cbn [si_in si_out]. rewrite Z0.
    exists ms, reps. split; [auto|]. split; [apply S0; auto|exact P2|exact P3|exact P4|].
    unfold tinv. cbn [p_th p_done p_closed p_pos p_cl]. fold d. repeat (split; [assumption||reflexivity||lia|]). exists b. split; [exact L5|].
    rewrite L3 in Ho. exact Ho.
  - specialize (Hstep N (le_n _)). cbn [tstep] in Hstep. injection Hstep as <- <- <-. cbn [si_in si_out]. rewrite Z0.
    exists ms, reps. split; [auto|]. split; [apply S0; auto|exact P2|exact P3|exact P4|].
    unfold tinv. cbn [p_th p_done p_closed p_pos p_cl]. fold d. split; [exact Hp|]. split; [exact Hcl|exact P5].
Qed.

(** ** All together *)
Record ninv (x : net W) (ms reps : nat -> list (list byte)) (ins : nat -> list (list byte) * ioerr) (c' : cfg W unit) : Prop := mkNinv {
  ni_reach : steps (init h0 ins w0) c';
  ni_like : like None [] (fst x) c';
  ni_ins : forall i, chunks_ok (fst (ins i));
  ni_sent : forall i, List.concat (fst (ins i)) = List.concat (map record (ms i));
  ni_open : forall i e, k_rd (c_conns (fst x) i) = RDone (RIo e) -> p_closed (snd x i) = true;
  ni_ord : forall i, map fst (k_out (c_conns (fst x) i)) = seq 0 (List.length (k_out (c_conns (fst x) i)));
  ni_peer : forall i, pinv (c_hist (fst x)) (received (c_conns (fst x) i)) i (snd x i) (ms i) (reps i) }.

Lemma like_at (c c' : cfg W unit) i : like None [] c c' -> c_conns c' i = c_conns c i.
Proof. intros K. apply (lk_conns _ _ _ _ K). Qed.

Lemma ninv_init : ninv (ninit h0 w0 cl) (fun _ => []) (fun _ => []) (fun _ => ([], EOF)) (init h0 (fun _ => ([], EOF)) w0).
Proof.
  split; cbn; try (intros; discriminate); auto.
  - apply steps_refl.
  - apply like_refl.
  - intros. constructor.
  - intros i. split; cbn; auto.
    + intros j m H. destruct j; discriminate.
    + intros j m H. destruct j; discriminate.
    + exists []. reflexivity.
    + intros j q v e H. destruct j; discriminate.
Qed.

Lemma ninv_server c c2 f ms reps ins c' : ninv (c, f) ms reps ins c' -> step tt (reply_step srv) c c2 ->
  (forall i e, k_rd (c_conns c2 i) = RDone (RIo e) -> p_closed (f i) = true) ->
  exists c2', ninv (c2, f) ms reps ins c2'.
Proof.
  intros [N1 N2 N3 N4 N5 N6 N7] S Hcl. cbn [fst snd] in *.
  destruct (like_step tt (reply_step srv) _ _ _ _ _ N2 S) as (c2' & S' & K); [discriminate|].
  exists c2'. assert (R' : steps (init h0 ins w0) c2') by (eapply steps_snoc; eassumption).
  split; cbn [fst snd]; auto.
  - intros i. destruct (out_step tt (reply_step srv) _ _ i S) as [E|(Hb & Hb' & kk & r & E)]; [rewrite E; apply N6|].
    rewrite E, map_app, app_length. cbn [map fst List.length]. rewrite N6, Nat.add_1_r, seq_S. cbn [Nat.add]. f_equal. f_equal.
    destruct (pinv_small _ _ _ _ _ _ (N7 i)) as (Sm & Sr & Sa).
    destruct (c42_account tt _ _ _ _ N3 _ R' i) as (ND & _ & P). rewrite (like_at _ _ i K) in ND, P.
    destruct (reqs_prefix ins c2' N3 R' i (ms i) (N4 i) Sm) as (ms' & Em). rewrite (like_at _ _ i K) in Em.
    assert (Hlt : (kk < List.length (k_reqs (c_conns c2 i)))%nat).
    { assert (Hin : In kk (seq 0 (List.length (k_reqs (c_conns c2 i))))).
      { eapply Permutation_in; [exact P|]. apply in_or_app. left. rewrite E, map_app. apply in_or_app. right. left. reflexivity. }
      apply in_seq in Hin. lia. }
    assert (Hni : ~ In kk (seq 0 (List.length (k_out (c_conns c i))))).
    { rewrite <- N6. rewrite E, map_app in ND. intros Hin. apply (NoDup_app_in _ _ ND kk Hin). left. reflexivity. }
    pose proof (pinv_len _ _ _ _ _ _ (N7 i)) as Hl.
    assert (Hg : (List.length (reps i) <= List.length (k_out (c_conns c i)))%nat).
    { pose proof (got_outs ins c' N3 N1 i (ms i) (N4 i) Sm Sa (reps i) Sr Hl) as G.
      rewrite (like_at _ _ i N2) in G. apply G; [|exact Hb]. exact (pi_recv _ _ _ _ _ _ (N7 i)). }
    rewrite in_seq in Hni. rewrite Em, app_length in Hl. lia.
  - intros i. destruct (hist_grows tt (reply_step srv) _ _ S) as (y & ->).
    destruct (c42_account tt _ _ _ _ N3 _ N1 i) as (_ & Q & _). rewrite (like_at _ _ i N2) in Q.
    destruct (received_grows tt (reply_step srv) _ _ i S) as (z & ->); [intros Hb; apply (Q Hb)|]. apply pinv_mono. apply N7.
Qed.

Lemma updp_at f i p : updp f i p i = p.
Proof. unfold updp. rewrite Nat.eqb_refl. reflexivity. Qed.

(** Only client [i]'s record of its own calls changes. *)
Lemma ninv_peer c f ms reps ins c' i p : ninv (c, f) ms reps ins c' ->
  (p_closed (f i) = true -> p_closed p = true) -> pinv (c_hist c) (received (c_conns c i)) i p (ms i) (reps i) ->
  ninv (c, updp f i p) ms reps ins c'.
Proof.
  intros [N1 N2 N3 N4 N5 N6 N7] Hc Hp. cbn [fst snd] in *. split; cbn [fst snd]; auto.
  - intros j e H. unfold updp. destruct (Nat.eqb_spec j i) as [->|]; [apply Hc|]; eapply N5; eassumption.
  - intros j. unfold updp. destruct (Nat.eqb_spec j i) as [->|]; [exact Hp|apply N7].
Qed.

Lemma ninv_step x y ms reps ins c' : ninv x ms reps ins c' -> nstep srv prog x y -> exists ms reps ins c', ninv y ms reps ins c'.
Proof.
  intros N S. destruct S as [c c2 f S Hcl|c f i q Et Ec Ep|c f i q t cs rest n c1 s1 t1 ds Et Hnd Hr Hcs Hw Hst Hds Hcat|c f i q v e Et|c f i Et Ec].
  - destruct (ninv_server _ _ _ _ _ _ _ N S Hcl) as (c2' & H). eauto.
  - exists ms, reps, ins, c'. apply ninv_peer; [exact N|cbn; congruence|].
    pose proof (ni_peer _ _ _ _ _ N i) as [P1 P2 P3 P4 P5]. cbn [fst snd] in *. unfold tinv in P5. rewrite Et in P5. destruct P5 as (L1 & L2 & L3 & L4).
    split; cbn [p_done]; auto.
    + intros j m Hj. destruct (P1 j m Hj) as (q0 & [H|(E & t0 & H)] & Ha); [|congruence]. exists q0. split; [left; exact H|exact Ha].
    + unfold tinv. cbn. auto 10.
  - pose proof (ni_peer _ _ _ _ _ N i) as Pi. cbn [fst snd] in Pi. destruct (pinv_small _ _ _ _ _ _ Pi) as (Sm & Sr & Sa).
    pose proof (pinv_len _ _ _ _ _ _ Pi) as Hl.
    destruct N as [N1 N2 N3 N4 N5 N6 N7]. cbn [fst snd] in *.
    assert (Ei : c_conns c' i = c_conns c i) by (apply like_at; exact N2).
    assert (Hcl : p_closed (f i) = false). { destruct Pi as [_ _ _ _ P5]. unfold tinv in P5. rewrite Et in P5. tauto. }
    destruct (cli_step (c_hist c) (received (c_conns c i)) i (f i) (ms i) (reps i) q t cs rest n c1 s1 t1 Pi Et) as (ms1 & reps1 & Hms & Hp);
      [| |exact Hr|exact Hcs|exact Hw|exact Hst|].
    { intros b r0 Hrv Hb. pose proof (read_one ins c' N3 N1 i (ms i) (N4 i) Sm Sa) as G. rewrite Ei, (lk_hist _ _ _ _ N2) in G.
      exact (G (N6 i) (reps i) Sr Hl b r0 Hrv Hb). }
    { intros acc r0 Hrv Ha. pose proof (read_hdr ins c' N3 N1 i (ms i) (N4 i) Sm Sa) as G. rewrite Ei in G. exact (G (reps i) Sr Hl acc r0 Hrv Ha). }
    assert (Hno : forall e, k_rd (c_conns c' i) <> RDone (RIo e)).
    { intros e He. rewrite Ei in He. apply N5 in He. congruence. }
    destruct (like_steps tt (reply_step srv) _ _ _ i ds _ N1 Hno) as (c2 & R2 & K2).
    exists (fun j => if Nat.eqb j i then ms1 else ms j), (fun j => if Nat.eqb j i then reps1 else reps j), (more_ins ins i ds), c2.
    assert (Hrec : forall j, received (c_conns (push i ds c) j) = received (c_conns c j) /\ k_out (c_conns (push i ds c) j) = k_out (c_conns c j) /\ k_rd (c_conns (push i ds c) j) = k_rd (c_conns c j)).
    { intros j. cbn [push c_conns]. unfold updk. destruct (Nat.eqb_spec j i) as [->|]; auto. }
    split; cbn [fst snd].
    + exact R2.
    + destruct N2 as [A1 A2 A3 A4 A5 A6 A7], K2 as [B1 B2 B3 B4 B5 B6 B7]. split; cbn [push c_heap c_pool c_tasks c_world c_crashed c_hist c_conns]; try congruence.
      intros j. rewrite B7, A7. cbn [pushk]. unfold updk. destruct (Nat.eqb_spec j i) as [->|]; reflexivity.
    + intros j. unfold more_ins. destruct (Nat.eqb_spec j i) as [->|]; [|apply N3]. cbn [fst]. apply Forall_app. split; [apply N3|exact Hds].
    + intros j. unfold more_ins. destruct (Nat.eqb_spec j i) as [->|]; [|apply N4]. cbn [fst]. rewrite concat_app, N4, Hcat.
      destruct Hms as [[-> ->]|(m & -> & ->)]; [apply app_nil_r|rewrite records_snoc; reflexivity].
    + intros j e He. destruct (Hrec j) as (_ & _ & Er). rewrite Er in He. unfold updp. destruct (Nat.eqb_spec j i) as [->|]; apply N5 in He; exact He.
    + intros j. destruct (Hrec j) as (_ & -> & _). apply N6.
    + intros j. destruct (Hrec j) as (-> & _). unfold updp. destruct (Nat.eqb_spec j i) as [->|]; [exact Hp|apply N7].
  - exists ms, reps, ins, c'. apply ninv_peer; [exact N|cbn; auto|].
    pose proof (ni_peer _ _ _ _ _ N i) as [P1 P2 P3 P4 P5]. cbn [fst snd] in *. unfold tinv in P5. rewrite Et in P5.
    destruct P5 as (Hp & Hcl & L1 & L2 & L3 & L4 & b & L5 & L6).
    split; cbn [p_done]; auto.
    + intros j m Hj. destruct (P1 j m Hj) as (q0 & [(v0 & e0 & H)|(E & t0 & H)] & Ha); exists q0; (split; [|exact Ha]); left; cbn [p_done].
      * exists v0, e0. apply nth_keep. exact H.
      * rewrite Et in H. injection H as <- <-. exists v, e. rewrite E. apply nth_at.
    + intros j q0 v0 e0 Hj. apply nth_snoc in Hj. destruct Hj as [Hj|[-> Hj]].
      * rewrite firstn_app. replace (j - List.length (p_done (f i)))%nat with 0%nat by (assert (j < List.length (p_done (f i)))%nat by (apply nth_error_Some; congruence); lia).
        cbn [firstn]. rewrite app_nil_r. apply P4 in Hj. exact Hj.
      * injection Hj as -> -> ->. rewrite firstn_app, Nat.sub_diag, firstn_O, app_nil_r, firstn_all. split; [exact Hp|eauto].
    + unfold tinv. cbn [p_th p_done p_pos p_cl]. rewrite app_length. cbn [List.length]. rewrite Nat.add_1_r. auto.
  - exists ms, reps, ins, c'. apply ninv_peer; [exact N|cbn; auto|].
    pose proof (ni_peer _ _ _ _ _ N i) as [P1 P2 P3 P4 P5]. cbn [fst snd] in *. unfold tinv in P5. rewrite Et in P5.
    split; cbn [p_done]; auto.
    + intros j m Hj. destruct (P1 j m Hj) as (q0 & [H|(E & t0 & H)] & Ha); [|congruence]. exists q0. split; [left; exact H|exact Ha].
Qed.

Lemma ninv_all x : nsteps srv prog (ninit h0 w0 cl) x -> exists ms reps ins c', ninv x ms reps ins c'.
Proof.
  remember (ninit h0 w0 cl) as x0 eqn:E. induction 1 as [x|x y z R IH S]; subst.
  - do 4 eexists. apply ninv_init.
  - destruct (IH eq_refl) as (ms & reps & ins & c' & H). eapply ninv_step; eassumption.
Qed.
End Inv.
