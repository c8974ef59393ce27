(** A shared counter with two clients (for the statements about Net.v). *)
From Verif Require Import Bytes XdrLib Types Interp Spec Meta Runs Check RpcTypes RpcSpec RpcWire RpcDec Io Client CallSpec ClientP CliConc
  Server ServSpec ServerP ServerQ ServerX ServerEx ServerL Heap Conc ConcL ConcM Net NetR NetL E2E CliEx.
Open Scope string_scope.
Open Scope Z_scope.
Open Scope list_scope.

(** Add the argument to the world and return the sum. *)
Definition cnt_add (x : option val) (w : Z) : outcome (Z * option val) :=
  let w' := match x with Some (VInt z) => (w + z) mod 2 ^ 32 | _ => w mod 2 ^ 32 end in Ret (w', Some (VInt w')).
Definition cnt_stub : handler Z := stub rpc_env (Some (CIdent "Uint32")) (Some (CIdent "Uint32")) cnt_add.
Definition cnt_regs : list (registration Z) := [mkReg 300000 1 1 (Some cnt_stub)].
Definition cnt_srv : server Z := RegisterMany MakeServer cnt_regs.
(** Client 0 adds 5, client 1 adds 10, the others do nothing. *)
Definition cnt_prog (i : nat) (done : list result) : option callreq :=
  match i, done with 0%nat, [] => Some (exc_q 5) | 1%nat, [] => Some (exc_q 10) | _, _ => None end.
Definition cnt_amount (i : nat) : Z := match i with 0%nat => 5 | _ => 10 end.
Definition cnt_spec (i j : nat) (q : callreq) (w w' : Z) (a : answer) : Prop :=
  w' = (w + cnt_amount i) mod 2 ^ 32 /\ a = mkAns rpc_env (Some (CIdent "Uint32")) (Some (VInt w')).

Lemma cnt_user : user_ok rpc_env (Some (CIdent "Uint32")) (Some (CIdent "Uint32")) cnt_add.
Proof.
  split; [|split].
  - intros t [= <-]. apply good_rpc. vm_compute. reflexivity.
  - intros t [= <-]. apply good_rpc. vm_compute. reflexivity.
  - intros x w w' y H. unfold cnt_add in H. injection H as _ <-. eexists. split; [reflexivity|].
    apply HT_ident with CU32; [reflexivity|]. constructor. destruct x as [[]|]; apply Z.mod_pos_bound; lia.
Qed.
Lemma cnt_ok : forall i : nat, reach cnt_srv cnt_regs /\ regs_ok cnt_regs.
Proof.
  intros _. split; [apply (R_many MakeServer [] cnt_regs); constructor|]. intros r h [<-|[]] [= <-]. apply u_ok. exact cnt_user.
Qed.
Lemma cnt_prompt : forall i : nat, prompt_regs cnt_regs.
Proof. intros _ r [<-|[]]. eexists. split; [reflexivity|]. apply stub_prompt; [exact cnt_user|]. intros x w. eexists. reflexivity. Qed.
Lemma cnt_invokes xid z w : 0 <= z < 2 ^ 32 ->
  invokes cnt_regs xid 300000 1 (exc_q z) w ((w + z) mod 2 ^ 32) (mkAns rpc_env (Some (CIdent "Uint32")) (Some (VInt ((w + z) mod 2 ^ 32)))).
Proof.
  intros Hz. eapply Invokes with (x := Some (VInt z)); [|apply agrees_refl|exact cnt_user| | | | | |].
  - exists [], []. split; [reflexivity|]. intros r [].
  - split; [reflexivity|]. split; [reflexivity|]. exists (VInt z). split; [reflexivity|]. split; [|split].
    + econstructor; [reflexivity|]. constructor.
    + econstructor; [reflexivity|]. constructor.
    + apply HT_ident with CU32; [reflexivity|]. constructor. lia.
  - reflexivity.
  - apply B_ident with CU32; [reflexivity|constructor].
  - intros m Hm. rewrite (exc_request _ _ _ Hm). lia.
  - intros b Hb. cbn [res_wire stub_res xv_env xv_ty xv_val] in Hb.
    inversion Hb as [| | | | | | | | | | | | | | | |x t v b' Hx Hw]; subst.
    injection Hx as <-. inversion Hw as [z' b' Hz' Hb'| | | | | | | | | | | | | | | |]; subst. unfold zlen. rewrite (proj1 Hb'). lia.
  - repeat split.
Qed.
Lemma cnt_cl : forall i : nat, client_ok exc_c. Proof. intros _. exact exc_c_ok. Qed.
Lemma cnt_served : served (fun _ => exc_c) (fun _ => cnt_regs) cnt_prog cnt_spec.
Proof.
  intros i done q H. assert (q = exc_q (cnt_amount i) /\ 0 <= cnt_amount i < 2 ^ 32) as [-> Hz].
  { destruct i as [|[|i]], done; try discriminate H; injection H as <-; cbn; split; (reflexivity || lia). }
  split; [apply exc_q_ok; exact Hz|]. split; [apply exc_q_enc|]. intros w.
  exists ((w + cnt_amount i) mod 2 ^ 32), (mkAns rpc_env (Some (CIdent "Uint32")) (Some (VInt ((w + cnt_amount i) mod 2 ^ 32)))).
  split; [split; reflexivity|]. apply cnt_invokes. exact Hz.
Qed.

Definition cnt_start : net Z := ninit [] 0 (fun _ => exc_c).
Notation csteps := (nsteps (fun _ => cnt_srv) cnt_prog).
Lemma cnt_atomic x : csteps cnt_start x -> exists tr, atomic cnt_spec 0 x tr.
Proof.
  intros R. destruct (atomic_calls (fun _ => cnt_srv) (fun _ => exc_c) (fun _ => cnt_regs) cnt_ok cnt_cl cnt_prog cnt_spec cnt_served [] 0 x x R (nsteps_refl _ _ _)) as (tr & _ & H & _). eauto.
Qed.
Lemma cnt_delivered z v : delivered (mkAns rpc_env (Some (CIdent "Uint32")) (Some (VInt z))) v -> v = VInt z.
Proof.
  intros (r & [= <-] & H). cbn [an_env] in H. inversion H as [| | | | | | | | | | | | | |x t v1 v2 Hx Hs]; subst. injection Hx as <-.
  inversion Hs; subst; reflexivity.
Qed.
Lemma two_orders {A} (a b : A) l : a <> b -> NoDup l -> (forall x, In x l -> x = a \/ x = b) -> In a l -> In b l -> l = [a; b] \/ l = [b; a].
Proof.
  intros D N H Ia Ib. destruct l as [|x [|y [|z l]]].
  - destruct Ia.
  - destruct Ia as [<-|[]], Ib as [<-|[]]. congruence.
  - destruct (H x (or_introl eq_refl)) as [->| ->], (H y (or_intror (or_introl eq_refl))) as [->| ->]; auto; exfalso;
      inversion N as [|? ? N1 N2]; apply N1; left; reflexivity.
  - exfalso. inversion N as [|? ? N1 N2]. inversion N2 as [|? ? N3 N4]. subst.
    assert (x <> y /\ x <> z /\ y <> z) as (D1 & D2 & D3).
    { split; [|split]; intros <-; [apply N1; left|apply N1; right; left|apply N3; left]; reflexivity. }
    destruct (H x (or_introl eq_refl)) as [->| ->], (H y (or_intror (or_introl eq_refl))) as [->| ->],
      (H z (or_intror (or_intror (or_introl eq_refl)))) as [->| ->]; congruence.
Qed.
Lemma snoc_inv {A} (l : list A) a l' b : l ++ [a] = l' ++ [b] -> l = l' /\ a = b. Proof. apply app_inj_tail. Qed.
Lemma invoked_snoc {W} (spec : nat -> nat -> callreq -> W -> W -> answer -> Prop) w0 tr i j q a w' :
  invoked spec w0 (tr ++ [(i, j, q, a)]) w' -> exists w, invoked spec w0 tr w /\ spec i j q w w' a.
Proof.
  intros H. inversion H as [E|tr' w i' j' q' w2 a' H1 H2 E]; subst; [destruct tr; discriminate E|].
  apply app_inj_tail in E. destruct E as [-> [= -> -> -> ->]]. eauto.
Qed.
Lemma invoked_nil {W} (spec : nat -> nat -> callreq -> W -> W -> answer -> Prop) w0 w : invoked spec w0 [] w -> w = w0.
Proof. intros H. inversion H as [E|tr' w1 i' j' q' w2 a' H1 H2 E]; [reflexivity|]. destruct tr'; discriminate E. Qed.

(** Whatever the schedule: when both calls have returned, the counter is 15, and one of them saw the
    other's addition. *)
Lemma cnt_results x q0 v0 e0 q1 v1 e1 : csteps cnt_start x ->
  p_done (snd x 0%nat) = [(q0, v0, e0)] -> p_done (snd x 1%nat) = [(q1, v1, e1)] ->
  e0 = None /\ e1 = None /\ c_world (fst x) = 15 /\ (v0 = VInt 5 /\ v1 = VInt 15 \/ v0 = VInt 15 /\ v1 = VInt 10).
Proof.
  intros R D0 D1. destruct (cnt_atomic x R) as (tr & [A1 A2 A3 A4]).
  destruct (A4 0%nat 0%nat q0 v0 e0) as (-> & a0 & I0 & V0); [rewrite D0; reflexivity|].
  destruct (A4 1%nat 0%nat q1 v1 e1) as (-> & a1 & I1 & V1); [rewrite D1; reflexivity|].
  split; [reflexivity|]. split; [reflexivity|].
  assert (K : forall i j q a, In (i, j, q, a) tr -> (i = 0%nat \/ i = 1%nat) /\ j = 0%nat).
  { intros i j q a Hin.
    destruct (program (fun _ => cnt_srv) (fun _ => exc_c) (fun _ => cnt_regs) cnt_ok cnt_cl cnt_prog
      (served_calls_ok _ _ _ cnt_ok cnt_cl cnt_prog cnt_spec cnt_served 0) [] 0 x R i) as (_ & P1 & P2).
    assert (exists done, cnt_prog i done = Some q /\ j = List.length done) as (done & Hp & ->).
    { destruct (A3 _ _ _ _ Hin) as [(v & e & Hj)|(-> & t & Ht)].
      - exists (firstn j (p_done (snd x i))). split; [eapply P1; exact Hj|]. symmetry. apply firstn_length_le.
        assert (j < List.length (p_done (snd x i)))%nat by (apply nth_error_Some; congruence). lia.
      - exists (p_done (snd x i)). split; [apply (P2 _ _ Ht)|reflexivity]. }
    destruct i as [|[|i]], done; try discriminate Hp; auto. }
  assert (N : NoDup tr) by (eapply NoDup_map_inv; exact A2).
  assert (U : forall e e', In e tr -> In e' tr -> fst (fst e) = fst (fst e') -> e = e').
  { clear - A2. induction tr as [|y tr IH]; intros e e' H H' E; [destruct H|]. cbn [map] in A2. inversion A2 as [|? ? B1 B2]; subst.
    destruct H as [<-|H], H' as [<-|H']; [reflexivity| | |apply IH; assumption]; exfalso; apply B1.
    - rewrite E. exact (in_map (fun e : nat * nat * callreq * answer => fst (fst e)) _ _ H').
    - rewrite <- E. exact (in_map (fun e : nat * nat * callreq * answer => fst (fst e)) _ _ H). }
  assert (T : tr = [(0%nat, 0%nat, q0, a0); (1%nat, 0%nat, q1, a1)] \/ tr = [(1%nat, 0%nat, q1, a1); (0%nat, 0%nat, q0, a0)]).
  { apply two_orders; auto; [congruence|]. intros [[[i j] q] a] Hin. destruct (K _ _ _ _ Hin) as [[->| ->] ->]; [left|right]; apply U; auto. }
  destruct T as [-> | ->].
  - apply (invoked_snoc cnt_spec 0 [(0%nat, 0%nat, q0, a0)]) in A1. destruct A1 as (w & A1 & S1 & ->).
    apply (invoked_snoc cnt_spec 0 []) in A1. destruct A1 as (w2 & A1 & S0 & ->). apply invoked_nil in A1. subst.
    rewrite S1 in *. apply cnt_delivered in V0, V1. subst. split; [reflexivity|]. left. split; reflexivity.
  - apply (invoked_snoc cnt_spec 0 [(1%nat, 0%nat, q1, a1)]) in A1. destruct A1 as (w & A1 & S1 & ->).
    apply (invoked_snoc cnt_spec 0 []) in A1. destruct A1 as (w2 & A1 & S0 & ->). apply invoked_nil in A1. subst.
    rewrite S1 in *. apply cnt_delivered in V0, V1. subst. split; [reflexivity|]. right. split; reflexivity.
Qed.

(** There is such an execution. *)
Lemma cnt_exists : exists x q0 v0 e0 q1 v1 e1, csteps cnt_start x /\
  p_done (snd x 0%nat) = [(q0, v0, e0)] /\ p_done (snd x 1%nat) = [(q1, v1, e1)].
Proof.
  assert (C : forall x i q t, csteps cnt_start x -> p_th (snd x i) = Some (q, t) -> k_broken (c_conns (fst x) i) = false ->
    exists n y v e, moves (fun _ => cnt_srv) cnt_prog n x y /\ p_th (snd y i) = None /\ p_done (snd y i) = p_done (snd x i) ++ [(q, v, e)] /\
      forall j, k_broken (c_conns (fst y) j) = k_broken (c_conns (fst x) j)).
  { intros x i q t. exact (can_return (fun _ => cnt_srv) (fun _ => exc_c) (fun _ => cnt_regs) cnt_ok cnt_cl cnt_prog cnt_spec cnt_served cnt_prompt [] 0 x i q t). }
  pose proof (N_next (fun _ => cnt_srv) cnt_prog (fst cnt_start) (snd cnt_start) 0%nat (exc_q 5) eq_refl eq_refl eq_refl) as S0.
  match type of S0 with nstep _ _ _ ?z => set (x0 := z) in S0 end.
  assert (R0 : csteps cnt_start x0) by (eapply nsteps_snoc; [constructor|exact S0]).
  destruct (C x0 0%nat (exc_q 5) (TStart (exc_q 5)) R0 eq_refl eq_refl) as (n1 & x1 & v0 & e0 & M1 & T1 & D1 & B1).
  assert (I1 : snd x1 1%nat = snd x0 1%nat) by (eapply moves_idle; [exact M1|reflexivity]).
  assert (R1 : csteps cnt_start x1) by (eapply nsteps_trans; [exact R0|eapply moves_nsteps; exact M1]).
  pose proof (N_next (fun _ => cnt_srv) cnt_prog (fst x1) (snd x1) 1%nat (exc_q 10)) as S1. rewrite I1 in S1. specialize (S1 eq_refl eq_refl eq_refl).
  match type of S1 with nstep _ _ _ ?z => set (x2 := z) in S1 end.
  assert (R2 : csteps cnt_start x2) by (eapply nsteps_snoc; [exact R1|]; rewrite (surjective_pairing x1); exact S1).
  destruct (C x2 1%nat (exc_q 10) (TStart (exc_q 10)) R2 eq_refl) as (n3 & x3 & v1 & e1 & M3 & T3 & D3 & B3); [apply (B1 1%nat)|].
  assert (I3 : snd x3 0%nat = snd x2 0%nat) by (eapply moves_idle; [exact M3|exact T1]).
  exists x3, (exc_q 5), v0, e0, (exc_q 10), v1, e1. split; [eapply nsteps_trans; [exact R2|eapply moves_nsteps; exact M3]|].
  split; [rewrite I3; exact D1|]. rewrite D3. reflexivity.
Qed.

(** ** What the sequences of calls are *)
Lemma invoked_iff (W : Type) (spec : nat -> nat -> callreq -> W -> W -> answer -> Prop) w0 :
  (forall w, invoked spec w0 [] w <-> w = w0) /\
  (forall tr i j q a w', invoked spec w0 (tr ++ [(i, j, q, a)]) w' <-> exists w, invoked spec w0 tr w /\ spec i j q w w' a).
Proof.
  split; [intros w; split; [apply invoked_nil|intros ->; constructor]|]. intros tr i j q a w'. split; [apply invoked_snoc|].
  intros (w & H1 & H2). econstructor; eassumption.
Qed.
Lemma linear_iff (W : Type) (srv : nat -> server W) (cl : nat -> client) w0 :
  (forall w, linear srv cl w0 [] w <-> w = w0) /\
  (forall tr i j q o w', linear srv cl w0 (tr ++ [(i, j, q, o)]) w' <-> exists w m, linear srv cl w0 tr w /\ request (xid_of (cl i) j) (cl_prog (cl i)) (cl_vers (cl i)) q m /\
     match o with Some rep => sends (srv i) w m w' rep | None => silent (srv i) w m w' end).
Proof.
  split.
  - intros w. split; [|intros ->; constructor]. intros H. inversion H as [E|tr ? ? ? ? ? ? ? ? ? ? E|tr ? ? ? ? ? ? ? ? ? E]; [reflexivity|destruct tr; discriminate E..].
  - intros tr i j q o w'. split.
    + intros H. inversion H as [E|tr' w i' j' q' m w2 rep H1 H2 H3 E|tr' w i' j' q' m w2 H1 H2 H3 E]; [destruct tr; discriminate E| |];
        apply app_inj_tail in E; destruct E as [-> [= -> -> -> <-]]; exists w, m; auto.
    + intros (w & m & H1 & H2 & H3). destruct o; econstructor; eassumption.
Qed.
