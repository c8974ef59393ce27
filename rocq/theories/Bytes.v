(** Bytes, big-endian integers, and small list facts used everywhere. *)
From Coq Require Export List ZArith Lia Bool String.
From Coq Require Export Init.Byte.
From Coq Require Import NArith Strings.Byte.
Export ListNotations.
Open Scope Z_scope.
Open Scope list_scope.

(** ** Bytes as numbers *)

Definition b2z (b : byte) : Z := Z.of_N (Byte.to_N b).

(** Go's conversion [byte(z)]: keeps the low 8 bits. *)
Definition z2b (z : Z) : byte :=
  match Byte.of_N (Z.to_N (z mod 256)) with
  | Some b => b
  | None => x00
  end.

Lemma b2z_range b : 0 <= b2z b < 256.
Proof.
  unfold b2z. pose proof (Byte.to_N_bounded b). lia.
Qed.

Lemma b2z_z2b z : b2z (z2b z) = z mod 256.
Proof.
  unfold z2b, b2z.
  assert (H : 0 <= z mod 256 < 256) by (apply Z.mod_pos_bound; lia).
  destruct (Byte.of_N (Z.to_N (z mod 256))) as [b|] eqn:E.
  - apply Byte.to_of_N in E. rewrite E. lia.
  - apply Byte.of_N_None_iff in E. lia.
Qed.

Lemma z2b_b2z b : z2b (b2z b) = b.
Proof.
  unfold z2b. pose proof (b2z_range b) as H.
  rewrite Z.mod_small by lia.
  unfold b2z. rewrite N2Z.id. rewrite Byte.of_to_N. reflexivity.
Qed.

Lemma b2z_inj a b : b2z a = b2z b -> a = b.
Proof. intros H. rewrite <- (z2b_b2z a), <- (z2b_b2z b), H. reflexivity. Qed.

Lemma b2z_x00 : b2z x00 = 0.
Proof. reflexivity. Qed.

(** ** The arithmetic meaning of a big-endian byte string (specification) *)

(** [be_val bs] is the number whose base-256 digits, most significant first, are [bs]. *)
Definition be_val (bs : list byte) : Z :=
  fold_left (fun acc b => acc * 256 + b2z b) bs 0.

Lemma be_val_fold acc bs :
  fold_left (fun a b => a * 256 + b2z b) bs acc
  = acc * 256 ^ Z.of_nat (List.length bs) + be_val bs.
Proof.
  unfold be_val. revert acc.
  induction bs as [|b bs IH]; intros acc; cbn [fold_left List.length].
  - rewrite Z.pow_0_r. lia.
  - rewrite IH. rewrite (IH (0 * 256 + b2z b)).
    rewrite Nat2Z.inj_succ, Z.pow_succ_r by lia. lia.
Qed.

Lemma be_val_cons b bs :
  be_val (b :: bs) = b2z b * 256 ^ Z.of_nat (List.length bs) + be_val bs.
Proof.
  unfold be_val at 1. cbn [fold_left]. rewrite be_val_fold. lia.
Qed.

Lemma be_val_range bs : 0 <= be_val bs < 256 ^ Z.of_nat (List.length bs).
Proof.
  induction bs as [|b bs IH].
  - cbn. lia.
  - rewrite be_val_cons. pose proof (b2z_range b).
    cbn [List.length]. rewrite Nat2Z.inj_succ, Z.pow_succ_r by lia. nia.
Qed.

Lemma be_val_inj a b :
  List.length a = List.length b -> be_val a = be_val b -> a = b.
Proof.
  revert b. induction a as [|x a IH]; intros [|y b] Hl Hv; try discriminate; auto.
  rewrite !be_val_cons in Hv. injection Hl as Hl. rewrite Hl in Hv.
  pose proof (be_val_range a) as Ha. pose proof (be_val_range b) as Hb.
  rewrite Hl in Ha.
  assert (Hxy : b2z x = b2z y) by nia.
  rewrite (b2z_inj _ _ Hxy). f_equal. apply IH; auto. nia.
Qed.

(** ** encoding/binary *)

(** encoding/binary [bigEndian.PutUint32]: b[0]=byte(v>>24) .. b[3]=byte(v).
    (External dependency of /repo/xdr/lib.go:113,115,138,153,203,250,
    /repo/rfc1057/client.go:55, /repo/rfc1057/server.go:178.) *)
Definition put_u32 (v : Z) : list byte :=
  [z2b (Z.shiftr v 24); z2b (Z.shiftr v 16); z2b (Z.shiftr v 8); z2b v].

(** encoding/binary [bigEndian.PutUint64] (/repo/xdr/lib.go:168,183). *)
Definition put_u64 (v : Z) : list byte :=
  [z2b (Z.shiftr v 56); z2b (Z.shiftr v 48); z2b (Z.shiftr v 40); z2b (Z.shiftr v 32);
   z2b (Z.shiftr v 24); z2b (Z.shiftr v 16); z2b (Z.shiftr v 8); z2b v].

(** encoding/binary [bigEndian.Uint32]:
    uint32(b[3]) | uint32(b[2])<<8 | uint32(b[1])<<16 | uint32(b[0])<<24.
    Buffers passed by the code always have length 4; for other lengths (Go would
    panic or ignore the rest) the model returns 0 and no theorem relies on it. *)
Definition get_u32 (bs : list byte) : Z :=
  match bs with
  | [a; b; c; d] =>
      Z.lor (Z.lor (Z.lor (b2z d) (Z.shiftl (b2z c) 8)) (Z.shiftl (b2z b) 16))
            (Z.shiftl (b2z a) 24)
  | _ => 0
  end.

(** encoding/binary [bigEndian.Uint64]. *)
Definition get_u64 (bs : list byte) : Z :=
  match bs with
  | [a; b; c; d; e; f; g; h] =>
      Z.lor (Z.lor (Z.lor (Z.lor (Z.lor (Z.lor (Z.lor
        (b2z h) (Z.shiftl (b2z g) 8)) (Z.shiftl (b2z f) 16)) (Z.shiftl (b2z e) 24))
        (Z.shiftl (b2z d) 32)) (Z.shiftl (b2z c) 40)) (Z.shiftl (b2z b) 48))
        (Z.shiftl (b2z a) 56)
  | _ => 0
  end.

Lemma lor_shiftl_add x y n :
  0 <= n -> 0 <= x < 2 ^ n -> Z.lor x (Z.shiftl y n) = x + y * 2 ^ n.
Proof.
  intros Hn Hx.
  rewrite Z.shiftl_mul_pow2 by lia.
  symmetry. rewrite <- Z.lxor_lor.
  - rewrite Z.add_nocarry_lxor; [reflexivity|].
    apply Z.bits_inj'. intros i Hi. rewrite Z.land_spec, Z.bits_0.
    destruct (Z.ltb_spec i n).
    + rewrite Z.mul_pow2_bits_low by lia. apply andb_false_r.
    + assert (Z.testbit x i = false) as ->; [|reflexivity].
      destruct (Z.eq_dec x 0) as [->|Hx0]; [apply Z.bits_0|].
      apply Z.bits_above_log2; [lia|].
      apply Z.lt_le_trans with n; [|lia]. apply Z.log2_lt_pow2; lia.
  - apply Z.bits_inj'. intros i Hi. rewrite Z.land_spec, Z.bits_0.
    destruct (Z.ltb_spec i n).
    + rewrite Z.mul_pow2_bits_low by lia. apply andb_false_r.
    + assert (Z.testbit x i = false) as ->; [|reflexivity].
      destruct (Z.eq_dec x 0) as [->|Hx0]; [apply Z.bits_0|].
      apply Z.bits_above_log2; [lia|].
      apply Z.lt_le_trans with n; [|lia]. apply Z.log2_lt_pow2; lia.
Qed.

Lemma put_u32_length v : List.length (put_u32 v) = 4%nat.
Proof. reflexivity. Qed.
Lemma put_u64_length v : List.length (put_u64 v) = 8%nat.
Proof. reflexivity. Qed.

Lemma put_u32_val v : be_val (put_u32 v) = v mod 2 ^ 32.
Proof.
  unfold put_u32. rewrite !be_val_cons, !b2z_z2b. cbn [List.length].
  rewrite !Z.shiftr_div_pow2 by lia.
  change (2^24) with 16777216. change (2^16) with 65536. change (2^8) with 256.
  change (256 ^ Z.of_nat 3) with 16777216. change (256 ^ Z.of_nat 2) with 65536.
  change (256 ^ Z.of_nat 1) with 256. change (256 ^ Z.of_nat 0) with 1.
  change (be_val []) with 0. change (2^32) with 4294967296.
  Z.div_mod_to_equations. lia.
Qed.

Lemma put_u64_val v : be_val (put_u64 v) = v mod 2 ^ 64.
Proof.
  unfold put_u64. rewrite !be_val_cons, !b2z_z2b. cbn [List.length].
  rewrite !Z.shiftr_div_pow2 by lia.
  change (2^56) with 72057594037927936. change (2^48) with 281474976710656.
  change (2^40) with 1099511627776. change (2^32) with 4294967296.
  change (2^24) with 16777216. change (2^16) with 65536. change (2^8) with 256.
  change (256 ^ Z.of_nat 7) with 72057594037927936.
  change (256 ^ Z.of_nat 6) with 281474976710656.
  change (256 ^ Z.of_nat 5) with 1099511627776.
  change (256 ^ Z.of_nat 4) with 4294967296.
  change (256 ^ Z.of_nat 3) with 16777216. change (256 ^ Z.of_nat 2) with 65536.
  change (256 ^ Z.of_nat 1) with 256. change (256 ^ Z.of_nat 0) with 1.
  change (be_val []) with 0. change (2^64) with 18446744073709551616.
  Z.div_mod_to_equations. lia.
Qed.

Lemma get_u32_val bs : List.length bs = 4%nat -> get_u32 bs = be_val bs.
Proof.
  intros H. do 4 (destruct bs as [|? bs]; [discriminate|]).
  destruct bs; [|discriminate].
  rewrite !be_val_cons. cbn [List.length get_u32].
  repeat match goal with |- context [b2z ?x] =>
    let r := fresh "R" in pose proof (b2z_range x) as r;
    let v := fresh "v" in set (v := b2z x) in *; clearbody v end.
  rewrite (lor_shiftl_add _ _ 8) by (cbn; lia).
  rewrite (lor_shiftl_add _ _ 16) by (cbn; lia).
  rewrite (lor_shiftl_add _ _ 24) by (cbn; lia).
  cbn. lia.
Qed.

Lemma get_u64_val bs : List.length bs = 8%nat -> get_u64 bs = be_val bs.
Proof.
  intros H. do 8 (destruct bs as [|? bs]; [discriminate|]).
  destruct bs; [|discriminate].
  rewrite !be_val_cons. cbn [List.length get_u64].
  repeat match goal with |- context [b2z ?x] =>
    let r := fresh "R" in pose proof (b2z_range x) as r;
    let v := fresh "v" in set (v := b2z x) in *; clearbody v end.
  rewrite (lor_shiftl_add _ _ 8) by (cbn; lia).
  rewrite (lor_shiftl_add _ _ 16) by (cbn; lia).
  rewrite (lor_shiftl_add _ _ 24) by (cbn; lia).
  rewrite (lor_shiftl_add _ _ 32) by (cbn; lia).
  rewrite (lor_shiftl_add _ _ 40) by (cbn; lia).
  rewrite (lor_shiftl_add _ _ 48) by (cbn; lia).
  rewrite (lor_shiftl_add _ _ 56) by (cbn; lia).
  cbn. lia.
Qed.

(** A 4-byte string is determined by its value. *)
Lemma put_u32_of_val bs z :
  List.length bs = 4%nat -> be_val bs = z mod 2 ^ 32 -> bs = put_u32 z.
Proof.
  intros Hl Hv. apply be_val_inj; [rewrite Hl; reflexivity|].
  rewrite put_u32_val. exact Hv.
Qed.
Lemma put_u64_of_val bs z :
  List.length bs = 8%nat -> be_val bs = z mod 2 ^ 64 -> bs = put_u64 z.
Proof.
  intros Hl Hv. apply be_val_inj; [rewrite Hl; reflexivity|].
  rewrite put_u64_val. exact Hv.
Qed.

(** ** Lists *)

Definition zlen {A} (l : list A) : Z := Z.of_nat (List.length l).

Lemma zlen_nonneg {A} (l : list A) : 0 <= zlen l.
Proof. unfold zlen; lia. Qed.
Lemma zlen_app {A} (l m : list A) : zlen (l ++ m) = zlen l + zlen m.
Proof. unfold zlen. rewrite app_length. lia. Qed.
Lemma zlen_cons {A} (x : A) (l : list A) : zlen (x :: l) = 1 + zlen l.
Proof. unfold zlen. cbn [List.length]. lia. Qed.
Lemma zlen_nil {A} : zlen (@nil A) = 0.
Proof. reflexivity. Qed.
Lemma zlen_repeat {A} (x : A) n : zlen (repeat x n) = Z.of_nat n.
Proof. unfold zlen. rewrite repeat_length. reflexivity. Qed.
Lemma zlen_map {A B} (f : A -> B) l : zlen (map f l) = zlen l.
Proof. unfold zlen. rewrite map_length. reflexivity. Qed.
Lemma zlen_put_u32 v : zlen (put_u32 v) = 4.
Proof. reflexivity. Qed.
Lemma zlen_put_u64 v : zlen (put_u64 v) = 8.
Proof. reflexivity. Qed.

(** Number of zero bytes RFC 4506 appends after [n] bytes of data. *)
Definition padlen (n : nat) : nat := Z.to_nat ((4 - Z.of_nat n mod 4) mod 4).

Lemma padlen_lt n : (padlen n < 4)%nat.
Proof. unfold padlen. Z.div_mod_to_equations. lia. Qed.
Lemma padlen_mod n : Z.of_nat (n + padlen n) mod 4 = 0.
Proof. unfold padlen. Z.div_mod_to_equations. lia. Qed.
Lemma padlen_0 n : Z.of_nat n mod 4 = 0 -> padlen n = 0%nat.
Proof. unfold padlen. intros H. rewrite H. reflexivity. Qed.

Definition zeros (n : nat) : list byte := repeat x00 n.
