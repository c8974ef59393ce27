(** Integer literals: what [num_val] (GoSem.v) takes them to be is what the Go specification says,
    and for those of the XDR language what RFC 4506 says. *)
From Coq Require Import Ascii String List ZArith Lia Bool.
From Verif Require Import GoLex GoSem.
Import ListNotations.
Open Scope string_scope.
Open Scope Z_scope.
Open Scope list_scope.

(** ** The grammar (Go specification, "Integer literals"; RFC 4506, 6.2 (9)) *)
Definition digit_table : list (ascii * Z) :=
  [("0", 0); ("1", 1); ("2", 2); ("3", 3); ("4", 4); ("5", 5); ("6", 6); ("7", 7); ("8", 8); ("9", 9);
   ("a", 10); ("b", 11); ("c", 12); ("d", 13); ("e", 14); ("f", 15);
   ("A", 10); ("B", 11); ("C", 12); ("D", 13); ("E", 14); ("F", 15)]%char.
Definition digit (b : Z) (c : ascii) (d : Z) : Prop := In (c, d) digit_table /\ d < b.
(** Digits of base [b], one at least; [u]: an underscore may stand between two of them. *)
Inductive numeral (u : bool) (b : Z) : list Z -> string -> Prop :=
| Nu_last c d : digit b c d -> numeral u b [d] (String c "")
| Nu_next c d ds s : digit b c d -> numeral u b ds s -> numeral u b (d :: ds) (String c s)
| Nu_under c d ds s : u = true -> digit b c d -> numeral u b ds s -> numeral u b (d :: ds) (String c (String "_" s)).
Definition value (b : Z) (ds : list Z) : Z := fold_left (fun a d => a * b + d) ds 0.
Definition prefixed (b : Z) (c : ascii) : Prop :=
  (b = 16 /\ (c = "x" \/ c = "X") \/ b = 8 /\ (c = "o" \/ c = "O") \/ b = 2 /\ (c = "b" \/ c = "B"))%char.
Inductive go_int : string -> Z -> Prop :=
| Gi_zero : go_int "0" 0
| Gi_decimal d ds s : d <> 0 -> numeral true 10 (d :: ds) s -> go_int s (value 10 (d :: ds))
| Gi_octal ds s : numeral true 8 ds s -> go_int (String "0" s) (value 8 ds)
| Gi_octal_u ds s : numeral true 8 ds s -> go_int (String "0" (String "_" s)) (value 8 ds)
| Gi_prefix b c ds s : prefixed b c -> numeral true b ds s -> go_int (String "0" (String c s)) (value b ds)
| Gi_prefix_u b c ds s : prefixed b c -> numeral true b ds s -> go_int (String "0" (String c (String "_" s))) (value b ds).
(** The constants of XDR: decimal without leading zero, octal with one, hexadecimal after 0x. *)
Inductive xdr_int : string -> Z -> Prop :=
| Xi_zero : xdr_int "0" 0
| Xi_decimal d ds s : d <> 0 -> numeral false 10 (d :: ds) s -> xdr_int s (value 10 (d :: ds))
| Xi_octal ds s : numeral false 8 ds s -> xdr_int (String "0" s) (value 8 ds)
| Xi_hex ds s : numeral false 16 ds s -> xdr_int (String "0" (String "x" s)) (value 16 ds).

(** ** Proofs *)
Lemma table_hex c d : In (c, d) digit_table -> is_hex c = true /\ digit_val c = d /\ Ascii.eqb c "_" = false.
Proof. intros H. cbn [In digit_table] in H. repeat (destruct H as [[= <- <-]|H]; [repeat split; reflexivity|]). destruct H. Qed.
Lemma hex_table c : is_hex c = true -> In (c, digit_val c) digit_table.
Proof. destruct c as [[|] [|] [|] [|] [|] [|] [|] [|]]; try (intros H; vm_compute in H; discriminate H); intros _; vm_compute; tauto. Qed.
Lemma digit_iff b c d : digit b c d <-> (Ascii.eqb c "_" = false /\ is_hex c && (digit_val c <? b) = true /\ digit_val c = d).
Proof.
  split.
  - intros [H L]. destruct (table_hex c d H) as (A & B & C). rewrite A, B. cbn. rewrite (proj2 (Z.ltb_lt d b)) by exact L. auto.
  - intros (A & B & C). apply andb_true_iff in B. destruct B as [B1 B2]. apply Z.ltb_lt in B2. subst d. split; [apply hex_table; exact B1|exact B2].
Qed.
Definition from (b acc : Z) (ds : list Z) : Z := fold_left (fun a d => a * b + d) ds acc.
Lemma numeral_cons u b ds s : numeral u b ds s -> exists c s' d ds', s = String c s' /\ ds = d :: ds' /\ digit b c d.
Proof. intros H. inversion H; subst; do 4 eexists; eauto. Qed.
Lemma digits_iff b s : forall acc z,
  (digits b acc true s = Some z <-> exists ds, numeral true b ds s /\ z = from b acc ds) /\
  (digits b acc false s = Some z <-> (s = "" /\ z = acc) \/ (exists ds, numeral true b ds s /\ z = from b acc ds) \/ exists s' ds, s = String "_" s' /\ numeral true b ds s' /\ z = from b acc ds).
Proof.
  induction s as [|c s IH]; intros acc z; cbn [digits].
  - split; [split; [discriminate|intros (ds & H & _); inversion H]|]. split; [intros [= ->]; auto|]. intros [[_ ->]|[(ds & H & _)|(s' & ds & H & _)]]; [reflexivity|inversion H|discriminate H].
  - assert (N : Ascii.eqb c "_" = false -> (if is_hex c && (digit_val c <? b) then digits b (acc * b + digit_val c) false s else None) = Some z <->
                exists ds, numeral true b ds (String c s) /\ z = from b acc ds).
    { intros U. split.
      - destruct (is_hex c && (digit_val c <? b)) eqn:D; [|discriminate]. assert (Dg : digit b c (digit_val c)) by (apply digit_iff; auto).
        intros H. apply (proj2 (IH _ _)) in H. destruct H as [[-> ->]|[(ds & H & ->)|(s' & ds & -> & H & ->)]].
        + exists [digit_val c]. split; [constructor; exact Dg|reflexivity].
        + exists (digit_val c :: ds). split; [constructor; assumption|reflexivity].
        + exists (digit_val c :: ds). split; [apply Nu_under; auto|reflexivity].
      - intros (ds & H & ->). inversion H as [c' d Dg|c' d ds' s' Dg H'|c' d ds' s' _ Dg H']; subst; apply digit_iff in Dg; destruct Dg as (_ & -> & ->); apply (proj2 (IH _ _)).
        + left. split; reflexivity.
        + right. left. exists ds'. split; [exact H'|reflexivity].
        + right. right. exists s', ds'. split; [reflexivity|]. split; [exact H'|reflexivity]. }
    destruct (Ascii.eqb c "_") eqn:U.
    + apply Ascii.eqb_eq in U. subst c. assert (K : forall ds, ~ numeral true b ds (String "_" s)).
      { intros ds H. apply numeral_cons in H. destruct H as (c & s' & d & ds' & [= <- <-] & _ & Dg). apply digit_iff in Dg. destruct Dg as (Q & _). discriminate Q. }
      split; [split; [discriminate|intros (ds & H & _); destruct (K _ H)]|]. rewrite (proj1 (IH acc z)). split.
      * intros (ds & H & ->). right. right. exists s, ds. auto.
      * intros [[Q _]|[(ds & H & _)|(s' & ds & [= <-] & H & ->)]]; [discriminate Q|destruct (K _ H)|exists ds; auto].
    + split; [apply N; reflexivity|]. rewrite (N eq_refl). split.
      * intros H. right. left. exact H.
      * intros [[Q _]|[H|(s' & ds & [= -> _] & _)]]; [discriminate Q|exact H|discriminate U].
Qed.
Lemma prefixed_digit b c d : prefixed b c -> ~ digit 8 c d.
Proof.
  intros P H. apply digit_iff in H. destruct H as (_ & H & _).
  destruct P as [[_ [-> | ->]]|[[_ [-> | ->]]|[_ [-> | ->]]]]; vm_compute in H; discriminate H.
Qed.
Lemma num_val_other c s : c <> "0"%char -> c <> "-"%char -> num_val (String c s) = digits 10 0 true (String c s).
Proof. intros H1 H2. destruct c as [[|] [|] [|] [|] [|] [|] [|] [|]]; try reflexivity; congruence. Qed.
Lemma lower_is c a b : Ascii.eqb (lower c) a = true -> In (a, b) [("x", "X"); ("o", "O"); ("b", "B")]%char -> c = a \/ c = b.
Proof.
  intros H I. apply Ascii.eqb_eq in H. cbn [In] in I. destruct I as [[= <- <-]|[[= <- <-]|[[= <- <-]|[]]]];
    destruct c as [[|] [|] [|] [|] [|] [|] [|] [|]]; vm_compute in H; try discriminate H; auto.
Qed.
Lemma pre_iff b s z : match s with EmptyString => None | _ => digits b 0 false s end = Some z <->
  (exists ds, numeral true b ds s /\ z = value b ds) \/ exists s' ds, s = String "_" s' /\ numeral true b ds s' /\ z = value b ds.
Proof.
  destruct s as [|c s].
  - split; [discriminate|]. intros [(ds & H & _)|(s' & ds & Q & _)]; [inversion H|discriminate Q].
  - rewrite (proj2 (digits_iff b (String c s) 0 z)). split; [intros [[Q _]|H]; [discriminate Q|exact H]|intros H; right; exact H].
Qed.
Lemma go_int_zero s z : go_int (String "0" s) z <->
  (s = "" /\ z = 0) \/
  (exists ds, (numeral true 8 ds s \/ exists s', s = String "_" s' /\ numeral true 8 ds s') /\ z = value 8 ds) \/
  (exists b c r ds, prefixed b c /\ s = String c r /\ (numeral true b ds r \/ exists s', r = String "_" s' /\ numeral true b ds s') /\ z = value b ds).
Proof.
  split.
  - intros H. inversion H as [Q|d ds s' D N|ds s' N|ds s' N|b c ds s' P N|b c ds s' P N]; subst.
    + left. auto.
    + apply numeral_cons in N. destruct N as (c & s1 & d' & ds' & [= <- <-] & [= <- <-] & N). apply digit_iff in N. destruct N as (_ & _ & N). vm_compute in N. congruence.
    + right. left. exists ds. eauto.
    + right. left. exists ds. split; [right; eauto|reflexivity].
    + right. right. exists b, c, s', ds. split; [exact P|]. split; [reflexivity|]. split; [left; exact N|reflexivity].
    + right. right. exists b, c, (String "_" s'), ds. split; [exact P|]. split; [reflexivity|]. split; [right; eauto|reflexivity].
  - intros [[-> ->]|[(ds & [N|(s' & -> & N)] & ->)|(b & c & r & ds & P & -> & [N|(s' & -> & N)] & ->)]]; econstructor; eassumption.
Qed.
Lemma num_val_go s z : head_is is_digit s = true -> (num_val s = Some z <-> go_int s z).
Proof.
  destruct s as [|c s]; [discriminate|]. intros Hd. cbn [head_is] in Hd.
  assert (c <> "-"%char) as Hm by (intros ->; discriminate Hd).
  destruct (ascii_dec c "0") as [->|H0].
  - rewrite go_int_zero. destruct s as [|x r].
    + cbn. split; [intros [= <-]; auto|]. intros [[_ ->]|[(ds & [N|(s' & Q & _)] & _)|(b & c & r & ds & _ & Q & _)]]; [reflexivity|inversion N|discriminate Q..].
    + assert (Pf : forall b c, prefixed b c -> forall z, match r with EmptyString => None | _ => digits b 0 false r end = Some z <->
        exists ds, (numeral true b ds r \/ exists s', r = String "_" s' /\ numeral true b ds s') /\ z = value b ds).
      { intros b c _ z'. rewrite pre_iff. split; [intros [(ds & N & ->)|(s' & ds & -> & N & ->)]; eauto 6|intros (ds & [N|(s' & -> & N)] & ->); eauto 7]. }
      assert (Do : forall b, prefixed b x -> (forall b' , prefixed b' x -> b' = b) -> num_val (String "0" (String x r)) = match r with EmptyString => None | _ => digits b 0 false r end ->
        (num_val (String "0" (String x r)) = Some z <->
         (String x r = "" /\ z = 0) \/
         (exists ds, (numeral true 8 ds (String x r) \/ exists s', String x r = String "_" s' /\ numeral true 8 ds s') /\ z = value 8 ds) \/
         (exists b c r' ds, prefixed b c /\ String x r = String c r' /\ (numeral true b ds r' \/ exists s', r' = String "_" s' /\ numeral true b ds s') /\ z = value b ds))).
      { intros b P U Q. rewrite Q, (Pf b x P z). split.
        - intros (ds & N & ->). right. right. exists b, x, r, ds. auto.
        - intros [[Q' _]|[(ds & [N|(s' & [= -> ->] & N)] & ->)|(b' & c & r' & ds & P' & [= <- <-] & N & ->)]].
          + discriminate Q'.
          + apply numeral_cons in N. destruct N as (c & s1 & d' & ds' & [= <- <-] & _ & N). destruct (prefixed_digit _ _ _ P N).
          + destruct P as [[_ [P|P]]|[[_ [P|P]]|[_ [P|P]]]]; discriminate P.
          + rewrite (U b' P') in *. exists ds. auto. }
      destruct (Ascii.eqb (lower x) "x") eqn:E1; [|destruct (Ascii.eqb (lower x) "o") eqn:E2; [|destruct (Ascii.eqb (lower x) "b") eqn:E3]].
      * apply (Do 16).
        -- destruct (lower_is x "x" "X" E1) as [-> | ->]; cbn; unfold prefixed; auto.
        -- intros b' P'. destruct (lower_is x "x" "X" E1) as [-> | ->]; cbn [In]; auto; unfold prefixed in P'; intuition congruence.
        -- cbn. rewrite E1. reflexivity.
      * apply (Do 8).
        -- destruct (lower_is x "o" "O" E2) as [-> | ->]; cbn; unfold prefixed; auto.
        -- intros b' P'. destruct (lower_is x "o" "O" E2) as [-> | ->]; cbn [In]; auto; unfold prefixed in P'; intuition congruence.
        -- cbn. rewrite E1, E2. reflexivity.
      * apply (Do 2).
        -- destruct (lower_is x "b" "B" E3) as [-> | ->]; cbn; unfold prefixed; auto.
        -- intros b' P'. destruct (lower_is x "b" "B" E3) as [-> | ->]; cbn [In]; auto; unfold prefixed in P'; intuition congruence.
        -- cbn. rewrite E1, E2, E3. reflexivity.
      * assert (num_val (String "0" (String x r)) = digits 8 0 false (String x r)) as -> by (cbn [num_val]; rewrite E1, E2, E3; reflexivity).
        rewrite (proj2 (digits_iff 8 (String x r) 0 z)). split.
        -- intros [[Q _]|[(ds & N & ->)|(s' & ds & Q & N & ->)]]; [discriminate Q|right; left; exists ds; auto|right; left; exists ds; split; [right; exists s'; auto|reflexivity]].
        -- intros [[Q _]|[(ds & [N|(s' & Q & N)] & ->)|(b & c & r' & ds & P & [= <- <-] & _)]]; [discriminate Q|right; left; exists ds; auto|right; right; exists s', ds; auto|].
           destruct P as [[_ [-> | ->]]|[[_ [-> | ->]]|[_ [-> | ->]]]]; discriminate.
  - rewrite num_val_other by assumption. rewrite (proj1 (digits_iff 10 (String c s) 0 z)). split.
    + intros (ds & N & ->). pose proof N as N'. apply numeral_cons in N'. destruct N' as (c' & s1 & d & ds' & [= <- <-] & -> & D).
      change (from 10 0 (d :: ds')) with (value 10 (d :: ds')). apply Gi_decimal; [|exact N]. intros ->. destruct D as [D _]. cbn [In digit_table] in D.
      repeat (destruct D as [D|D]; [congruence|]). destruct D.
    + intros H. inversion H as [Q|d ds s' D N|ds s' N|ds s' N|b c' ds s' P N|b c' ds s' P N]; subst; try congruence. exists (d :: ds). auto.
Qed.
Lemma go_int_digit s z : go_int s z -> head_is is_digit s = true.
Proof.
  intros H. inversion H as [Q|d ds s' D N|ds s' N|ds s' N|b c ds s' P N|b c ds s' P N]; subst; try reflexivity.
  apply numeral_cons in N. destruct N as (c & s1 & d' & ds' & -> & [= <- <-] & [I L]). cbn [In digit_table] in I.
  repeat (destruct I as [[= <- <-]|I]; [first [reflexivity|lia]|]). destruct I.
Qed.
Lemma numeral_under b ds s : numeral false b ds s -> numeral true b ds s.
Proof. induction 1; [constructor; assumption|constructor; assumption|discriminate]. Qed.
Lemma xdr_go s z : xdr_int s z -> go_int s z.
Proof.
  intros [|d ds t D N|ds t N|ds t N]; [constructor|apply Gi_decimal; [exact D|]|apply Gi_octal|apply Gi_prefix; [left; auto|]]; apply numeral_under; exact N.
Qed.
Lemma go_int_fun s z z' : go_int s z -> go_int s z' -> z = z'.
Proof. intros A B. pose proof (go_int_digit _ _ A) as D. apply (num_val_go _ _ D) in A, B. congruence. Qed.
Lemma go_int_nonneg s z : go_int s z -> 0 <= z.
Proof.
  assert (V : forall ds b acc, 0 <= acc -> 0 <= b -> Forall (fun d => 0 <= d) ds -> 0 <= fold_left (fun a d => a * b + d) ds acc).
  { induction ds as [|d ds IH]; intros b acc A B F; cbn; [exact A|]. inversion F; subst. apply IH; [nia|exact B|assumption]. }
  assert (N : forall u b ds t, numeral u b ds t -> Forall (fun d => 0 <= d) ds).
  { assert (D : forall b c d, digit b c d -> 0 <= d) by (intros b c d [I _]; cbn [In digit_table] in I; repeat (destruct I as [[= <- <-]|I]; [lia|]); destruct I).
    induction 1; constructor; eauto. }
  intros [|d ds t D H|ds t H|ds t H|b c ds t P H|b c ds t P H]; [lia|apply V; [lia|lia|eapply N; exact H]|apply V; [lia|lia|eapply N; exact H]|apply V; [lia|lia|eapply N; exact H]| |];
    (apply V; [lia|destruct P as [[-> _]|[[-> _]|[-> _]]]; lia|eapply N; exact H]).
Qed.
