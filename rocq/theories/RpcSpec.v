(** RFC 1057 message layouts, written out byte by byte.  Nothing here refers to the code. *)
From Verif Require Import Bytes XdrLib Types Spec Prim Enc.
Open Scope string_scope.
Open Scope Z_scope.
Open Scope list_scope.

Definition u32 (z : Z) : Prop := 0 <= z < 2 ^ 32.

(** Four bytes, most significant first ([z2b] keeps the low 8 bits). *)
Definition be4 (z : Z) : list byte :=
  [z2b (z / 2 ^ 24); z2b (z / 2 ^ 16); z2b (z / 2 ^ 8); z2b z].

(** RFC 1057, 8.2: authentication field with flavor [f] and [body] of at most 400 bytes. *)
Inductive auth (p : policy) (f : Z) (body : list byte) : list byte -> Prop :=
| Auth pad : u32 f -> zlen body <= 400 -> is_pad p (List.length body) pad ->
    auth p f body (be4 f ++ be4 (zlen body) ++ body ++ pad).

(** RFC 1057, 8: a call message up to the procedure's parameters. *)
Definition call_hdr (xid rpcvers prog vers proc : Z) (cred verf : list byte) : list byte :=
  be4 xid ++ be4 0 ++ be4 rpcvers ++ be4 prog ++ be4 vers ++ be4 proc ++ cred ++ verf.

(** [buf] is a call message with these fields, credential and verifier flavors and bodies,
    and parameter bytes [args]. *)
Definition is_call (p : policy) (buf : list byte) (xid rpcvers prog vers proc : Z)
    (f1 : Z) (b1 : list byte) (f2 : Z) (b2 : list byte) (args : list byte) : Prop :=
  u32 xid /\ u32 rpcvers /\ u32 prog /\ u32 vers /\ u32 proc /\
  exists cred verf, auth p f1 b1 cred /\ auth p f2 b2 verf /\
    buf = call_hdr xid rpcvers prog vers proc cred verf ++ args.

(** Replies (RFC 1057, 8). *)
Definition reply_denied_mismatch (xid lo hi : Z) : list byte :=
  be4 xid ++ be4 1 ++ be4 1 ++ be4 0 ++ be4 lo ++ be4 hi.
Definition reply_accepted (xid : Z) (verf : list byte) (stat : Z) : list byte :=
  be4 xid ++ be4 1 ++ be4 0 ++ verf ++ be4 stat.
(** AUTH_NONE, empty. *)
Definition null_auth : list byte := be4 0 ++ be4 0.

(** RFC 1057, 10: a message in one record: last-fragment bit and 31-bit length. *)
Definition record (w : list byte) : list byte := be4 (2 ^ 31 + zlen w) ++ w.

(** ** Facts *)
Lemma put_u32_be4 z : put_u32 z = be4 z.
Proof. unfold put_u32, be4. rewrite !Z.shiftr_div_pow2 by lia. reflexivity. Qed.

Lemma be4_is_be z : u32 z -> is_be 4 z (be4 z).
Proof. intros H. rewrite <- put_u32_be4. apply is_be_put_u32. exact H. Qed.

Lemma be4_len z : List.length (be4 z) = 4%nat.
Proof. reflexivity. Qed.

Lemma be4_val z : u32 z -> be_val (be4 z) = z.
Proof. intros H. apply (be4_is_be z H). Qed.

Lemma is_be_be4 z w : is_be 4 z w -> u32 z /\ w = be4 z.
Proof.
  intros [Hl Hv]. assert (Hz : u32 z).
  { unfold u32. rewrite <- Hv. pose proof (be_val_range w) as H. rewrite Hl in H. exact H. }
  split; [exact Hz|]. apply be_val_inj; [rewrite Hl; reflexivity|].
  rewrite (be4_val _ Hz). exact Hv.
Qed.

Lemma be4_inj a b : u32 a -> u32 b -> be4 a = be4 b -> a = b.
Proof. intros Ha Hb H. rewrite <- (be4_val a Ha), <- (be4_val b Hb), H. reflexivity. Qed.

Lemma be4_be_val w : List.length w = 4%nat -> w = be4 (be_val w) /\ u32 (be_val w).
Proof.
  intros H. destruct (is_be_be4 (be_val w) w (conj H eq_refl)) as [H1 H2]. auto.
Qed.

Lemma u32_0 : u32 0. Proof. unfold u32. lia. Qed.
Lemma u32_small z : 0 <= z <= 65535 -> u32 z. Proof. unfold u32. lia. Qed.
Global Opaque be4.
