(** Proofs about client programs. *)
From Verif Require Import Bytes XdrLib Types Interp Spec Meta Canon Runs Codec RpcTypes RpcSpec RpcWire RpcDec Io Client CallSpec ClientP
  Server ServSpec ServerP ServerQ ServerX E2E ReplySpec ReplyP ReplyQ Prog.
Open Scope string_scope.
Open Scope Z_scope.
Open Scope list_scope.

Lemma set_nth_length {A} i (a : A) l : List.length (set_nth i a l) = List.length l.
Proof. revert i. induction l as [|b l IH]; intros [|i]; cbn; congruence. Qed.
Lemma set_nth_map {A B} (f : A -> B) i a l : map f (set_nth i a l) = set_nth i (f a) (map f l).
Proof. revert i. induction l as [|b l IH]; intros [|i]; cbn; congruence. Qed.
Lemma set_nth_same {A} i (a : A) l : nth_error l i = Some a -> set_nth i a l = l.
Proof. revert i. induction l as [|b l IH]; intros [|i]; cbn; intros H; try discriminate; [congruence|]. f_equal. apply IH. exact H. Qed.
Lemma set_nth_inv {A} i (a : A) l j b : nth_error (set_nth i a l) j = Some b -> b = a \/ nth_error l j = Some b.
Proof. revert i j. induction l as [|c l IH]; intros [|i] [|j]; cbn; intros H; try discriminate; auto; [left; congruence|]. eapply IH. exact H. Qed.
Lemma set_nth_Forall {A} (P : A -> Prop) i a l : P a -> Forall P l -> Forall P (set_nth i a l).
Proof. intros Ha H. revert i. induction H as [|b l Hb Hl IH]; intros [|i]; cbn; constructor; auto. Qed.

Lemma idle_world {W} (w : W) s : idle s -> idle (with_world w s).
Proof. intros H. exact H. Qed.
Lemma new_idle {W} (w : W) : idle (new_link w).
Proof. split; [|reflexivity]. exists []. repeat split. constructor. Qed.
Lemma make_ok prog vers : u32 prog -> u32 vers -> client_ok (MakeClient prog vers).
Proof. intros Hp Hv. split; [apply u32_0|]. split; assumption. Qed.

(** A result received without error in a fresh variable. *)
Lemma result_canon {S} (C : conn S) c s q c' s' v : client_ok c -> req_ok q -> Calls C c s q c' s' v None ->
  fresh (xv_env (rq_resp q)) (xv_ty (rq_resp q)) (xv_val (rq_resp q)) ->
  canon (xv_env (rq_resp q)) (xv_ty (rq_resp q)) v /\ has_ty (xv_env (rq_resp q)) (xv_ty (rq_resp q)) v.
Proof.
  intros Hc Hq H Hf. destruct (calls_go _ _ _ _ _ _ _ _ Hc Hq H) as [_ G].
  destruct Hq as (_ & _ & _ & _ & ((D & HwE & Hwt & Hz) & Hty)).
  inversion G as [| | | | |msg s1 s2 s3 hdr m v0 e0 _ _ _ _ _ V]; subst.
  inversion V as [|x k rest e0 Hh He|rest v0 e0 Hh Hd E1 E2]; subst.
  destruct e0; [discriminate|]. apply Decode_runs in Hd. destruct Hd as (t & Hr & Ht).
  split; [|eapply runs_ty; eassumption].
  destruct Hr as [n Hr]. pose proof (RD_next _ _ _ _ _ _ _ Hr Ht) as Et. rewrite Et in Hr.
  eapply (runs_fresh_canon D); [exact HwE|exact Hwt|exact Hf|exists n; exact Hr].
Qed.

Section Sim.
Context {W : Type}.
Variables (ls : listeners W) (regs : Z -> list (registration W)) (ch1 ch2 : nat -> list byte -> list (list byte)).
Hypothesis Hls : listening ls regs.
Hypothesis Hch1 : forall i, chunker (ch1 i).
Hypothesis Hch2 : forall i, chunker (ch2 i).

Definition sys_ok (y : sys W) : Prop :=
  Forall (fun o => match o with Some (port, s) => ls port <> None /\ idle s | None => True end) (y_conns y) /\
  Forall (fun jc => client_ok (snd jc)) (y_clients y).

Lemma call_one q c i port s srv w w' f : client_ok c -> req_ok q -> encodable q -> idle s -> ls port = Some srv ->
  fresh (xv_env (rq_resp q)) (xv_ty (rq_resp q)) (xv_val (rq_resp q)) ->
  meets (regs port) (next_xid c) (cl_prog c) (cl_vers c) q w w' f ->
  exists N s' v e, idle s' /\ lk_w s' = w' /\ reports q f v e /\ forall n, (N <= n)%nat ->
    Calls (link_conn n (ch1 i) (ch2 i) srv) c (with_world w s) q (incr_xid c) s' v e.
Proof.
  intros Hc Hq He Hi Hl Hf Hm. destruct (Hls _ _ Hl) as [Hr Hg].
  destruct (meets_one srv (regs port) (ch1 i) (ch2 i) Hr Hg (Hch1 i) (Hch2 i) c q (with_world w s) w' f Hc Hq He (idle_world w s Hi) Hm)
    as (N & s' & [v e] & Hi' & Hw & Hs & HN).
  exists N, s', v, e. split; [exact Hi'|]. split; [exact Hw|]. split; [|exact HN].
  destruct f as [a|stat]; cbn in *; [|injection Hs as -> ->; auto]. destruct Hs as [Hd ->]. split; [reflexivity|].
  unfold delivered in Hd. inversion Hm as [w1 a0 Ha|]; subst.
  destruct (result_canon _ _ _ _ _ _ _ Hc Hq (HN N (le_n _)) Hf) as [K T].
  inversion Ha as [h E targ tres user x y Hlast Hag Hu Hrecv Hx Hb Hsize1 Hsize2 Hfit].
  subst. cbn [an_ty an_val an_env] in *. destruct tres as [t|]; [|exact Hd]. destruct Hd as (r & -> & Sm).
  exists r. split; [reflexivity|]. destruct Hfit as (HE & Ht & _). rewrite <- HE, <- Ht. rewrite HE, Ht in *. auto.
Qed.

Lemma conns_app y o : sys_ok y -> match o with Some (port, s) => ls port <> None /\ idle s | None => True end ->
  sys_ok (mkSys (y_w y) (y_conns y ++ [o]) (y_clients y) (y_out y)).
Proof. intros [H1 H2] Ho. split; [|exact H2]. cbn. apply Forall_app. split; [exact H1|]. constructor; [exact Ho|constructor]. Qed.

Lemma transparent p : forall y (Q : dsys W -> ending -> Prop), sys_ok y -> direct ls regs p (forget y) Q ->
  exists N y' r, sys_ok y' /\ Q (forget y') r /\ forall n, (N <= n)%nat -> remote n ls ch1 ch2 p y y' r.
Proof.
  induction p as [| |v k IH|port k IH|i prog vers k IH|j q k IH|i k IH]; intros y Q Hy Hd; cbn [direct forget d_w d_conns d_clients d_out] in Hd.
  - exists 0%nat, y, Stopped. split; [exact Hy|]. split; [exact Hd|]. intros. constructor.
  - exists 0%nat, y, Panicked. split; [exact Hy|]. split; [exact Hd|]. intros. constructor.
  - destruct (IH (mkSys (y_w y) (y_conns y) (y_clients y) (y_out y ++ [v])) Q Hy Hd) as (N & y' & r & Hy' & HQ & HN).
    exists N, y', r. split; [exact Hy'|]. split; [exact HQ|]. intros n Hn. constructor. apply HN. exact Hn.
  - destruct (ls port) as [srv|] eqn:El.
    + rewrite map_length in Hd.
      destruct (IH (Some (List.length (y_conns y))) (mkSys (y_w y) (y_conns y ++ [Some (port, new_link (y_w y))]) (y_clients y) (y_out y)) Q) as (N & y' & r & Hy' & HQ & HN).
      { apply conns_app; [exact Hy|]. split; [congruence|apply new_idle]. }
      { unfold forget. cbn [y_w y_conns y_clients y_out]. rewrite map_app. exact Hd. }
      exists N, y', r. split; [exact Hy'|]. split; [exact HQ|]. intros n Hn. apply R_dial; [congruence|]. apply HN. exact Hn.
    + destruct (IH None y Q Hy Hd) as (N & y' & r & Hy' & HQ & HN).
      exists N, y', r. split; [exact Hy'|]. split; [exact HQ|]. intros n Hn. apply R_dial_no; [exact El|]. apply HN. exact Hn.
  - destruct Hd as (Hp & Hv & Hd).
    destruct (IH (List.length (y_clients y)) (mkSys (y_w y) (y_conns y) (y_clients y ++ [(i, MakeClient prog vers)]) (y_out y)) Q) as (N & y' & r & Hy' & HQ & HN).
    { destruct Hy as [H1 H2]. split; [exact H1|]. cbn. apply Forall_app. split; [exact H2|]. constructor; [apply make_ok; assumption|constructor]. }
    { exact Hd. }
    exists N, y', r. split; [exact Hy'|]. split; [exact HQ|]. intros n Hn. apply R_make. apply HN. exact Hn.
  - destruct Hd as (i & c & port & w' & f & Ej & Ei & Hq & He & Hf & Hm & Hd).
    destruct Hy as [Hy1 Hy2].
    assert (exists s, nth_error (y_conns y) i = Some (Some (port, s))) as [s Es].
    { rewrite nth_error_map in Ei. destruct (nth_error (y_conns y) i) as [[[p s]|]|]; cbn in Ei; try discriminate. injection Ei as ->. eauto. }
    pose proof (proj1 (Forall_forall _ _) Hy1 _ (nth_error_In _ _ Es)) as [Hl Hi].
    pose proof (proj1 (Forall_forall _ _) Hy2 _ (nth_error_In _ _ Ej)) as Hc. cbn [snd] in Hc.
    destruct (ls port) as [srv|] eqn:El; [|congruence].
    destruct (call_one q c i port s srv (y_w y) w' f Hc Hq He Hi El Hf Hm) as (N1 & s' & v & e & Hi' & Hw & Hr & HN1).
    destruct (IH v e (mkSys (lk_w s') (set_nth i (Some (port, s')) (y_conns y)) (set_nth j (i, incr_xid c) (y_clients y)) (y_out y)) Q) as (N & y' & r & Hy' & HQ & HN).
    { split; cbn [y_conns y_clients].
      - apply set_nth_Forall; [|exact Hy1]. split; [congruence|exact Hi'].
      - apply set_nth_Forall; [|exact Hy2]. apply incr_ok. exact Hc. }
    { unfold forget. cbn [y_w y_conns y_clients y_out]. rewrite set_nth_map. cbn [option_map fst]. rewrite set_nth_same by exact Ei.
      rewrite Hw. exact (Hd v e Hr). }
    exists (N1 + N)%nat, y', r. split; [exact Hy'|]. split; [exact HQ|]. intros n Hn. eapply R_call; try eassumption.
    + apply HN1. lia.
    + apply HN. lia.
  - destruct (IH (mkSys (y_w y) (set_nth i None (y_conns y)) (y_clients y) (y_out y)) Q) as (N & y' & r & Hy' & HQ & HN).
    { destruct Hy as [H1 H2]. split; [|exact H2]. cbn. apply set_nth_Forall; [exact I|exact H1]. }
    { unfold forget. cbn [y_w y_conns y_clients y_out]. rewrite set_nth_map. exact Hd. }
    exists N, y', r. split; [exact Hy'|]. split; [exact HQ|]. intros n Hn. apply R_close. apply HN. exact Hn.
Qed.

Lemma transparent0 p w (Q : dsys W -> ending -> Prop) : direct ls regs p (dsys0 w) Q ->
  exists N y' r, Q (forget y') r /\ forall n, (N <= n)%nat ->
    remote n ls ch1 ch2 p (sys0 w) y' r.
Proof.
  intros H. destruct (transparent p (sys0 w) Q) as (N & y' & r & _ & HQ & HN); [split; constructor|exact H|]. eauto.
Qed.
End Sim.

Lemma remote_det {W} n (ls : listeners W) ch1 ch2 p y y1 r1 : remote n ls ch1 ch2 p y y1 r1 ->
  forall y2 r2, remote n ls ch1 ch2 p y y2 r2 -> y1 = y2 /\ r1 = r2.
Proof.
  induction 1 as [y|y|v k y y1 r1 _ IH|port k y y1 r1 El _ IH|port k y y1 r1 El _ IH|i prog vers k y y1 r1 _ IH
    |j q k y y1 r1 i c port s srv c' s' v e Ej Ei El Hc _ IH|i k y y1 r1 _ IH]; intros y2 r2 H2; inversion H2; subst; auto; try contradiction; try (apply IH; assumption).
  match goal with H : nth_error (y_clients y) j = Some (?a, ?b) |- _ => rewrite Ej in H; injection H as <- <- end.
  match goal with H : nth_error (y_conns y) i = Some (Some (?a, ?b)) |- _ => rewrite Ei in H; injection H as <- <- end.
  match goal with H : ls port = Some _ |- _ => rewrite El in H; injection H as <- end.
  match goal with H : Calls _ _ _ _ _ _ _ _ |- _ => destruct (Calls_det _ _ _ _ _ _ _ _ _ _ _ _ Hc H) as (<- & <- & <- & <-) end.
  apply IH. assumption.
Qed.
