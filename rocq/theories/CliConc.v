(** Concurrent use of one Client (/repo/rfc1057/client.go:27-108): Call cut into steps, so
    that several calls can interleave.  The client's fields and the connection are shared. *)
From Verif Require Import Bytes XdrLib Types Interp Spec Meta Runs RpcTypes RpcSpec Io Client CallSpec ClientP.
Open Scope string_scope.
Open Scope Z_scope.
Open Scope list_scope.

(** Where a call is.  [TRead hdr q k acc]: inside io.ReadFull of the record mark ([hdr]) or
    of the message, [k] bytes still missing. *)
Inductive thread : Type :=
| TStart (q : callreq)                                     (* before client.go:28 *)
| TInc (q : callreq)                                       (* after 28 *)
| TSend (q : callreq) (wbuf : list byte)                   (* before 56 *)
| TRead (hdr : bool) (q : callreq) (k : nat) (acc : list byte)  (* 60-75 *)
| TCheck (q : callreq) (buf : list byte)                   (* before 77 *)
| TDone (v : val) (e : option cerr)
| TCrash.

(** One step of a call.  Each access to [c.xid] (client.go:28, 31, 85) and each operation
    on the connection is in a step of its own. *)
Definition tstep {S} (n : nat) (C : conn S) (c : client) (s : S) (t : thread) : client * S * thread :=
  match t with
  | TStart q => (incr_xid c, s, TInc q)
  | TInc q =>
      match call_request n c (rq_proc q) (rq_cred q) (rq_verf q) (rq_args q) with
      | Ret (inl e) => (c, s, TDone (xv_val (rq_resp q)) (Some (CXdr e)))
      | Ret (inr wbuf) => (c, s, TSend q wbuf)
      | _ => (c, s, TCrash)
      end
  | TSend q wbuf =>
      let '(s1, e1) := c_write C s (put_u32 (rec_mark (zlen wbuf)) ++ wbuf) in
      match e1 with
      | Some e => (c, s1, TDone (xv_val (rq_resp q)) (Some (CIo e)))
      | None => (c, s1, TRead true q 4 [])
      end
  | TRead hdr q k acc =>
      match k with
      | O =>
          if hdr then
            let hlen := get_u32 acc in
            if Z.land hlen (2 ^ 31) =? 0
            then (c, s, TDone (xv_val (rq_resp q)) (Some CFragments))
            else (c, s, TRead false q (Z.to_nat (Z.land hlen 2147483647)) [])
          else (c, s, TCheck q acc)
      | _ =>
          let '(s1, d, e) := c_read C s k in
          if Nat.ltb k (List.length d) then (c, s1, TCrash)
          else
            let acc := acc ++ d in
            let k1 := (k - List.length d)%nat in
            match e with
            | None => (c, s1, TRead hdr q k1 acc)
            | Some e =>
                match k1 with
                | O => (c, s1, TRead hdr q 0 acc)
                | _ => (c, s1, TDone (xv_val (rq_resp q))
                          (Some (CIo (match e, acc with EOF, _ :: _ => ErrUnexpectedEOF | _, _ => e end))))
                end
            end
      end
  | TCheck q buf =>
      match call_reply n (cl_xid c) buf (rq_resp q) with
      | Ret (v, e) => (c, s, TDone v e)
      | _ => (c, s, TCrash)
      end
  | TDone _ _ | TCrash => (c, s, t)
  end.

Definition sys (S : Type) : Type := (client * S * list thread)%type.

Definition set_nth {A} (i : nat) (x : A) (l : list A) : list A := firstn i l ++ x :: skipn (i + 1) l.

(** Thread [i] makes a step. *)
Definition sstep {S} (n : nat) (C : conn S) (i : nat) (x : sys S) : sys S :=
  let '(c, s, ts) := x in
  match nth_error ts i with
  | Some t => let '(c1, s1, t1) := tstep n C c s t in (c1, s1, set_nth i t1 ts)
  | None => x
  end.

(** A schedule: who steps, in order. *)
Definition run_sched {S} (n : nat) (C : conn S) (sched : list nat) (x : sys S) : sys S :=
  fold_left (fun x i => sstep n C i x) sched x.

(** One call alone. *)
Fixpoint alone {S} (k n : nat) (C : conn S) (x : client * S * thread) : client * S * thread :=
  match k with
  | O => x
  | Datatypes.S k => alone k n C (let '(c, s, t) := x in tstep n C c s t)
  end.

(** ** A call that is not interrupted is [Call] *)
Lemma alone_app {S} j k n (C : conn S) x : alone (j + k) n C x = alone k n C (alone j n C x).
Proof. revert x. induction j as [|j IH]; intros x; [reflexivity|]. cbn. apply IH. Qed.

Lemma alone_done {S} k n (C : conn S) c s v e : alone k n C (c, s, TDone v e) = (c, s, TDone v e).
Proof. induction k; auto. Qed.

Lemma alone_read {S} n (C : conn S) f c hdr q : forall s k acc s' d e,
  read_full f C s k acc = Ret (s', d, e) ->
  exists j, alone j n C (c, s, TRead hdr q k acc) =
    (c, s', match e with None => TRead hdr q 0 d | Some e => TDone (xv_val (rq_resp q)) (Some (CIo e)) end).
Proof.
  induction f as [|f IH]; intros s k acc s' d e H; [discriminate|]. cbn [read_full] in H.
  destruct k as [|k]. { injection H as <- <- <-. exists 0%nat. reflexivity. }
  destruct (c_read C s (Datatypes.S k)) as [[s1 d1] e1] eqn:Er.
  destruct (Nat.ltb (Datatypes.S k) (List.length d1)) eqn:El; [discriminate|].
  destruct e1 as [e1|].
  - exists 1%nat. cbn [alone tstep]. rewrite Er, El.
    destruct (Datatypes.S k - List.length d1)%nat; injection H as <- <- <-; reflexivity.
  - destruct (IH _ _ _ _ _ _ H) as [j Hj]. exists (Datatypes.S j). cbn [alone tstep]. rewrite Er, El. exact Hj.
Qed.

Lemma alone_call {S} n (C : conn S) c s q c' s' v e :
  Call n C c s (rq_proc q) (rq_cred q) (rq_verf q) (rq_args q) (rq_resp q) = Ret (c', s', v, e) ->
  exists k, alone k n C (c, s, TStart q) = (c', s', TDone v e).
Proof.
  unfold Call. intros H. apply obind_ret in H. destruct H as (r & Hr & H).
  destruct r as [e0|wbuf].
  { injection H as <- <- <- <-. exists 2%nat. cbn [alone tstep]. rewrite Hr. reflexivity. }
  destruct (c_write C s (put_u32 (rec_mark (zlen wbuf)) ++ wbuf)) as [s1 [e1|]] eqn:Ew.
  { injection H as <- <- <- <-. exists 3%nat. cbn [alone tstep]. rewrite Hr. cbn [alone tstep]. rewrite Ew. reflexivity. }
  assert (H3 : alone 3 n C (c, s, TStart q) = (incr_xid c, s1, TRead true q 4 [])).
  { cbn [alone tstep]. rewrite Hr. cbn [alone tstep]. rewrite Ew. reflexivity. }
  apply obind_ret in H. destruct H as ([[s2 hdr] e2] & H2 & H).
  destruct (alone_read n C _ (incr_xid c) true q _ _ _ _ _ _ H2) as [j2 Hj2].
  destruct e2 as [e2|].
  { injection H as <- <- <- <-. exists (3 + j2)%nat. rewrite alone_app, H3. exact Hj2. }
  destruct (Z.land (get_u32 hdr) (2 ^ 31) =? 0) eqn:El.
  { injection H as <- <- <- <-. exists (3 + (j2 + 1))%nat. rewrite alone_app, H3, alone_app, Hj2.
    cbn [alone tstep]. rewrite El. reflexivity. }
  apply obind_ret in H. destruct H as ([[s3 buf] e3] & H4 & H).
  destruct (alone_read n C _ (incr_xid c) false q _ _ _ _ _ _ H4) as [j4 Hj4].
  assert (H5 : alone (3 + (j2 + 1)) n C (c, s, TStart q)
    = (incr_xid c, s2, TRead false q (Z.to_nat (Z.land (get_u32 hdr) 2147483647)) [])).
  { rewrite alone_app, H3, alone_app, Hj2. cbn [alone tstep]. rewrite El. reflexivity. }
  destruct e3 as [e3|].
  { injection H as <- <- <- <-. exists (3 + (j2 + 1) + j4)%nat. rewrite alone_app, H5. exact Hj4. }
  apply obind_ret in H. destruct H as ([v' e'] & H6 & H). injection H as <- <- <- <-.
  exists (3 + (j2 + 1) + (j4 + 2))%nat. rewrite alone_app, H5, alone_app, Hj4. cbn [alone tstep]. rewrite H6. reflexivity.
Qed.

(** Conversely. *)
Lemma read_alone {S} k n (C : conn S) c hdr q v e c' s' : forall s r acc,
  alone k n C (c, s, TRead hdr q r acc) = (c', s', TDone v e) ->
  exists f s2 d e2, read_full f C s r acc = Ret (s2, d, e2) /\
    match e2 with
    | Some x => c' = c /\ s' = s2 /\ v = xv_val (rq_resp q) /\ e = Some (CIo x)
    | None => exists j, (j < k)%nat /\ alone (Datatypes.S j) n C (c, s2, TRead hdr q 0 d) = (c', s', TDone v e)
    end.
Proof.
  induction k as [|k IH]; intros s r acc H; [discriminate|]. destruct r as [|r].
  { exists 1%nat, s, acc, None. split; [reflexivity|]. exists k. split; [lia|]. exact H. }
  cbn [alone tstep] in H. destruct (c_read C s (Datatypes.S r)) as [[s1 d1] e1] eqn:Er.
  destruct (Nat.ltb (Datatypes.S r) (List.length d1)) eqn:El.
  { exfalso. clear IH. induction k; [discriminate|auto]. }
  destruct e1 as [e1|].
  - destruct (Datatypes.S r - List.length d1)%nat eqn:Ek.
    + exists 1%nat, s1, (acc ++ d1), None. cbn [read_full]. rewrite Er, El, Ek. split; [reflexivity|].
      destruct k as [|k]; [discriminate|]. exists k. split; [lia|]. exact H.
    + rewrite alone_done in H. injection H as <- <- <- <-.
      exists 1%nat. do 3 eexists. cbn [read_full]. rewrite Er, El, Ek. split; [reflexivity|]. repeat split.
  - destruct (IH _ _ _ H) as (f & s2 & d & e2 & Hf & He). exists (Datatypes.S f), s2, d, e2.
    cbn [read_full]. rewrite Er, El. split; [exact Hf|]. destruct e2; [exact He|].
    destruct He as (j & Hj & He). exists j. split; [lia|exact He].
Qed.

Lemma crash_alone {S} k n (C : conn S) c s c' s' v e : alone k n C (c, s, TCrash) <> (c', s', TDone v e).
Proof. induction k; [discriminate|auto]. Qed.

Lemma call_alone {S} k n (C : conn S) c s q c' s' v e :
  alone k n C (c, s, TStart q) = (c', s', TDone v e) -> Calls C c s q c' s' v e.
Proof.
  intros H. destruct k as [|[|k]]; [discriminate|discriminate|]. cbn [alone tstep] in H.
  destruct (call_request n (incr_xid c) (rq_proc q) (rq_cred q) (rq_verf q) (rq_args q)) as [[e0|wbuf]| |] eqn:Hr.
  - rewrite alone_done in H. injection H as <- <- <- <-. exists n. unfold Call. rewrite Hr. reflexivity.
  - destruct k as [|k]; [discriminate|]. cbn [alone tstep] in H.
    destruct (c_write C s (put_u32 (rec_mark (zlen wbuf)) ++ wbuf)) as [s1 [e1|]] eqn:Ew.
    { rewrite alone_done in H. injection H as <- <- <- <-. exists n. unfold Call. rewrite Hr. cbn [obind]. rewrite Ew. reflexivity. }
    destruct (read_alone _ _ _ _ _ _ _ _ _ _ _ _ _ H) as (f & s2 & d & e2 & Hf & He).
    destruct e2 as [x|].
    { destruct He as (-> & -> & -> & ->). exists (n + f)%nat. unfold Call.
      rewrite (call_request_mono n (n + f) _ _ _ _ _ _ ltac:(lia) Hr). cbn [obind]. rewrite Ew.
      rewrite (read_full_mono f (n + f) _ _ _ _ _ ltac:(lia) Hf). reflexivity. }
    destruct He as (j & Hj & He). cbn [alone tstep] in He.
    destruct (Z.land (get_u32 d) (2 ^ 31) =? 0) eqn:El.
    { rewrite alone_done in He. injection He as <- <- <- <-. exists (n + f)%nat. unfold Call.
      rewrite (call_request_mono n (n + f) _ _ _ _ _ _ ltac:(lia) Hr). cbn [obind]. rewrite Ew.
      rewrite (read_full_mono f (n + f) _ _ _ _ _ ltac:(lia) Hf). cbn [obind]. rewrite El. reflexivity. }
    destruct (read_alone _ _ _ _ _ _ _ _ _ _ _ _ _ He) as (f3 & s3 & buf & e3 & Hf3 & He3).
    destruct e3 as [x|].
    { destruct He3 as (-> & -> & -> & ->). exists (n + f + f3)%nat. unfold Call.
      rewrite (call_request_mono n (n + f + f3) _ _ _ _ _ _ ltac:(lia) Hr). cbn [obind]. rewrite Ew.
      rewrite (read_full_mono f (n + f + f3) _ _ _ _ _ ltac:(lia) Hf). cbn [obind]. rewrite El.
      rewrite (read_full_mono f3 (n + f + f3) _ _ _ _ _ ltac:(lia) Hf3). reflexivity. }
    destruct He3 as (i & Hi & He3). cbn [alone tstep] in He3. destruct i as [|i]; [discriminate|].
    cbn [alone tstep] in He3.
    destruct (call_reply n (cl_xid (incr_xid c)) buf (rq_resp q)) as [[v0 e0]| |] eqn:Ec;
      [|exfalso; eapply crash_alone; exact He3|exfalso; eapply crash_alone; exact He3].
    rewrite alone_done in He3. injection He3 as <- <- <- <-. exists (n + f + f3)%nat. unfold Call.
    rewrite (call_request_mono n (n + f + f3) _ _ _ _ _ _ ltac:(lia) Hr). cbn [obind]. rewrite Ew.
    rewrite (read_full_mono f (n + f + f3) _ _ _ _ _ ltac:(lia) Hf). cbn [obind]. rewrite El.
    rewrite (read_full_mono f3 (n + f + f3) _ _ _ _ _ ltac:(lia) Hf3). cbn [obind].
    rewrite (call_reply_mono n (n + f + f3) _ _ _ _ ltac:(lia) Ec). reflexivity.
  - exfalso. eapply crash_alone. exact H.
  - exfalso. eapply crash_alone. exact H.
Qed.

Lemma c32_alone {S} (C : conn S) c s q c' s' v e :
  Calls C c s q c' s' v e <-> exists k n, alone k n C (c, s, TStart q) = (c', s', TDone v e).
Proof.
  split.
  - intros [n H]. destruct (alone_call _ _ _ _ _ _ _ _ _ H) as [k Hk]. eauto.
  - intros (k & n & H). eapply call_alone. exact H.
Qed.
