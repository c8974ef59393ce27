(** io.ReadWriter connections and io.ReadFull. *)
From Verif Require Import Bytes XdrLib Types Interp.
Open Scope string_scope.
Open Scope Z_scope.
Open Scope list_scope.

Inductive ioerr : Type := EOF | ErrUnexpectedEOF | EIo (s : string).

(** An io.ReadWriter with internal state [S] (external code, so arbitrary).
    [c_read s k]: Read into a buffer of [k] bytes returns the bytes stored and an error. *)
Record conn (S : Type) : Type := mkConn {
  c_write : S -> list byte -> S * option ioerr;
  c_read : S -> nat -> S * list byte * option ioerr
}.
Arguments c_write {S} c s b.
Arguments c_read {S} c s k.

(** The io.Reader contract: at most len(p) bytes. *)
Definition conn_ok {S} (C : conn S) : Prop :=
  forall s k s' d e, c_read C s k = (s', d, e) -> (List.length d <= k)%nat.

(** Go's io.ReadFull (= ReadAtLeast with min = len(buf)), called at client.go:61,72 and
    server.go:77,89: read until [k] bytes have arrived or an error; the error is dropped
    if all bytes arrived; EOF after some bytes becomes ErrUnexpectedEOF.  [acc] is what
    was read so far.  Fuel bounds the number of Read calls: [NoFuel] for every bound means
    the call blocks (or spins) forever. *)
Fixpoint read_full {S} (n : nat) (C : conn S) (s : S) (k : nat) (acc : list byte)
  : outcome (S * list byte * option ioerr) :=
  match n with
  | O => NoFuel
  | S n =>
      match k with
      | O => Ret (s, acc, None)
      | _ =>
          let '(s1, d, e) := c_read C s k in
          if Nat.ltb k (List.length d) then Panic
          else
            let acc := acc ++ d in
            let k1 := (k - List.length d)%nat in
            match e with
            | None => read_full n C s1 k1 acc
            | Some e =>
                match k1 with
                | O => Ret (s1, acc, None)
                | _ => Ret (s1, acc, Some (match e, acc with EOF, _ :: _ => ErrUnexpectedEOF | _, _ => e end))
                end
            end
      end
  end.

(** A connection that also records what is written. *)
Definition logged {S} (C : conn S) : conn (S * list (list byte)) :=
  mkConn _
    (fun sl b => let '(s', e) := c_write C (fst sl) b in ((s', snd sl ++ [b]), e))
    (fun sl k => let '(s', d, e) := c_read C (fst sl) k in ((s', snd sl), d, e)).

(** A byte-stream connection: [si_in] the chunks that successive Reads will see (a Read
    returns a prefix of the first chunk, at least one byte), then [si_end]; [si_out] what
    was written.  This is how TCP connections behave: arbitrary chunking, fixed bytes. *)
Record stream : Type := mkStream {
  si_in : list (list byte);
  si_end : ioerr;
  si_out : list (list byte)
}.

Definition stream_read (s : stream) (k : nat) : stream * list byte * option ioerr :=
  match si_in s with
  | [] => (s, [], Some (si_end s))
  | c :: cs =>
      if Nat.leb (List.length c) k then (mkStream cs (si_end s) (si_out s), c, None)
      else (mkStream (skipn k c :: cs) (si_end s) (si_out s), firstn k c, None)
  end.
Definition stream_conn : conn stream :=
  mkConn _ (fun s b => (mkStream (si_in s) (si_end s) (si_out s ++ [b]), None)) stream_read.

(** ** Facts *)
Lemma read_full_mono {S} n m (C : conn S) s k acc r :
  (n <= m)%nat -> read_full n C s k acc = Ret r -> read_full m C s k acc = Ret r.
Proof.
  revert m s k acc. induction n as [|n IH]; intros m s k acc Hm H; [discriminate|].
  destruct m as [|m]; [lia|]. cbn [read_full] in *. destruct k as [|k]; [exact H|].
  destruct (c_read C s (Datatypes.S k)) as [[s1 d] e].
  destruct (Nat.ltb (Datatypes.S k) (List.length d)); [exact H|].
  destruct e; [exact H|]. apply IH; [lia|exact H].
Qed.

Lemma read_full_det {S} n m (C : conn S) s k acc r r' :
  read_full n C s k acc = Ret r -> read_full m C s k acc = Ret r' -> r = r'.
Proof.
  intros H K. apply (read_full_mono _ (n + m)) in H; [|lia].
  apply (read_full_mono _ (n + m)) in K; [|lia]. congruence.
Qed.

Lemma read_full_len {S} n (C : conn S) s k acc s' d :
  read_full n C s k acc = Ret (s', d, None) -> exists w, d = acc ++ w /\ List.length w = k.
Proof.
  revert s k acc. induction n as [|n IH]; intros s k acc H; [discriminate|].
  cbn [read_full] in H. destruct k as [|k].
  { injection H as <- <-. exists []. rewrite app_nil_r. auto. }
  destruct (c_read C s (Datatypes.S k)) as [[s1 d1] e].
  destruct (Nat.ltb_spec (Datatypes.S k) (List.length d1)) as [|Hl]; [discriminate|].
  destruct e as [e|].
  - destruct (Datatypes.S k - List.length d1)%nat eqn:Ek; [|discriminate].
    injection H as _ <-. exists d1. split; [reflexivity|lia].
  - apply IH in H. destruct H as (w & -> & Hw). exists (d1 ++ w).
    rewrite app_assoc, app_length. split; [reflexivity|lia].
Qed.

Lemma read_full_logged {S} n (C : conn S) s l k acc :
  read_full n (logged C) (s, l) k acc =
  match read_full n C s k acc with
  | Ret (s', d, e) => Ret ((s', l), d, e) | Panic => Panic | NoFuel => NoFuel
  end.
Proof.
  revert s k acc. induction n as [|n IH]; intros s k acc; [reflexivity|].
  cbn [read_full logged c_read fst snd]. destruct k as [|k]; [reflexivity|].
  destruct (c_read C s (Datatypes.S k)) as [[s1 d] e].
  destruct (Nat.ltb (Datatypes.S k) (List.length d)); [reflexivity|].
  destruct e; [|apply IH].
  destruct (Datatypes.S k - List.length d)%nat; reflexivity.
Qed.

(** *** Chunking does not matter *)


(** Chunks are non-empty. *)
Definition chunks_ok (cs : list (list byte)) : Prop := Forall (fun c => c <> []) cs.

Lemma read_full_stream cs en out k acc : chunks_ok cs -> (k <= List.length (List.concat cs))%nat ->
  exists N cs', chunks_ok cs' /\ List.concat cs' = skipn k (List.concat cs) /\
    forall n, (N <= n)%nat ->
    read_full n stream_conn (mkStream cs en out) k acc
    = Ret (mkStream cs' en out, acc ++ firstn k (List.concat cs), None).
Proof.
  revert k acc. induction cs as [|c cs IH]; intros k acc Hc Hk.
  - cbn in Hk. assert (k = 0%nat) by lia. subst. exists 1%nat, []. split; [constructor|].
    split; [reflexivity|]. intros [|n] Hn; [lia|]. cbn. rewrite app_nil_r. reflexivity.
  - inversion Hc as [|? ? Hne Hcs]; subst. destruct k as [|k].
    { exists 1%nat, (c :: cs). split; [exact Hc|]. split; [reflexivity|].
      intros [|n] Hn; [lia|]. cbn. rewrite app_nil_r. reflexivity. }
    cbn [List.concat] in *. rewrite app_length in Hk.
    destruct (Nat.leb_spec (List.length c) (S k)) as [Hl|Hl].
    + destruct (IH (S k - List.length c)%nat (acc ++ c) Hcs ltac:(lia)) as (N & cs' & H1 & H2 & H3).
      exists (S N), cs'. split; [exact H1|]. split.
      { rewrite H2, skipn_app, (skipn_all2 c) by lia. reflexivity. }
      intros [|n] Hn; [lia|]. cbn [read_full stream_conn c_read stream_read si_in si_end si_out].
      destruct (Nat.leb_spec (List.length c) (S k)); [|lia].
      destruct (Nat.ltb_spec (S k) (List.length c)); [lia|].
      rewrite H3 by lia. rewrite firstn_app, (firstn_all2 c) by lia.
      rewrite <- app_assoc. reflexivity.
    + exists 2%nat, (skipn (S k) c :: cs). split.
      { constructor; [|exact Hcs]. intros H. apply (f_equal (@List.length _)) in H.
        rewrite skipn_length in H. cbn in H. lia. }
      split. { cbn [List.concat]. rewrite skipn_app. replace (S k - List.length c)%nat with 0%nat by lia. reflexivity. }
      intros [|[|n]] Hn; try lia. cbn [read_full stream_conn c_read stream_read si_in si_end si_out].
      destruct (Nat.leb_spec (List.length c) (S k)); [lia|].
      destruct (Nat.ltb_spec (S k) (List.length (firstn (S k) c))) as [Hx|Hx]; rewrite firstn_length in Hx; [lia|].
      rewrite firstn_length. replace (S k - Nat.min (S k) (List.length c))%nat with 0%nat by lia.
      rewrite firstn_app. replace (S k - List.length c)%nat with 0%nat by lia.
      cbn [firstn]. rewrite app_nil_r. reflexivity.
Qed.

(** Too few bytes: everything is consumed and an error returned. *)
Lemma read_full_stream_short cs en out k acc : chunks_ok cs -> (List.length (List.concat cs) < k)%nat ->
  exists N e, forall n, (N <= n)%nat ->
    read_full n stream_conn (mkStream cs en out) k acc
    = Ret (mkStream [] en out, acc ++ List.concat cs, Some e).
Proof.
  revert k acc. induction cs as [|c cs IH]; intros k acc Hc Hk.
  - exists 1%nat. eexists. intros [|n] Hn; [lia|]. destruct k as [|k]; [cbn in Hk; lia|].
    cbn [read_full stream_conn c_read stream_read si_in si_end si_out List.length List.concat].
    cbn [Nat.ltb Nat.leb Nat.sub]. rewrite app_nil_r. reflexivity.
  - inversion Hc as [|? ? Hne Hcs]; subst. destruct k as [|k]; [lia|].
    cbn [List.concat] in *. rewrite app_length in Hk.
    destruct (IH (S k - List.length c)%nat (acc ++ c) Hcs ltac:(lia)) as (N & e & H3).
    exists (S N), e. intros [|n] Hn; [lia|].
    cbn [read_full stream_conn c_read stream_read si_in si_end si_out].
    destruct (Nat.leb_spec (List.length c) (S k)); [|lia].
    destruct (Nat.ltb_spec (S k) (List.length c)); [lia|].
    rewrite H3 by lia. rewrite <- app_assoc. reflexivity.
Qed.

Lemma stream_ok : conn_ok stream_conn.
Proof.
  intros s k s' d e H. cbn in H. unfold stream_read in H. destruct (si_in s) as [|c cs].
  - injection H as _ <- _. cbn. lia.
  - destruct (Nat.leb_spec (List.length c) k); injection H as _ <- _; [lia|].
    rewrite firstn_length. lia.
Qed.
