(** The functions that rfc1057/{client,server}.go use from elsewhere, with the generated method of
    Rpc_msg run as its committed text says, in the memory of the caller. *)
From Verif Require Import GoLex XLex Gram GParse Emit RepoText Bytes XdrLib Types Interp Total GoAst GoSem GoSemP GoSemH GoSemHP GoSemHM GoFit FlatT.
From Verif Require Import GElab GoPkg GoWf RpcTypes GoRes GSimD GenCommitted GenText.
From Verif Require Import Heap HeapP HeapX Io Client ClientP Server SrcAst SrcProg SrcSem SrcLib SrcLibB SrcLibC SrcRpc SrcMsg SrcCli SrcEnv Runs.
Open Scope string_scope.
Open Scope Z_scope.
Open Scope list_scope.

(** ** Any supported specification *)
Lemma call_callH G grow m x h s v s' v' : grows grow -> gvalid h (h_buf s) -> safe h s v -> GoSem.call G m x (habs h s) (deref h v) = GRet (s', v') ->
  exists h1 s1 v1, callH G grow m x h s v = GRet (h1, s1, v1) /\ habs h1 s1 = s' /\ deref h1 v1 = v' /\ hstep h s h1 s1 /\ safe h1 s1 v1.
Proof.
  intros Gr Hv Hs HM. pose proof (call_sim G grow Gr m x h s v Hv Hs) as K.
  destruct (callH G grow m x h s v) as [[[h1 s1] v1]| | |]; cbn [gorel] in K; [|congruence..].
  destruct K as (K1 & K2 & K3). rewrite HM in K1. injection K1 as -> ->. exists h1, s1, v1. auto.
Qed.
Lemma eventually_callH G grow x h s v s' v' : grows grow -> gvalid h (h_buf s) -> safe h s v ->
  (exists M, forall m, (M <= m)%nat -> GoSem.call G m x (habs h s) (deref h v) = GRet (s', v')) ->
  exists h1 s1 v1, habs h1 s1 = s' /\ deref h1 v1 = v' /\ hstep h s h1 s1 /\ safe h1 s1 v1 /\
    exists M, forall m, (M <= m)%nat -> callH G grow m x h s v = GRet (h1, s1, v1).
Proof.
  intros Gr Hv Hs [M HM]. destruct (call_callH G grow M x h s v s' v' Gr Hv Hs (HM M (Nat.le_refl M))) as (h1 & s1 & v1 & R & A).
  exists h1, s1, v1. destruct A as (A1 & A2 & A3 & A4). repeat (split; [assumption|]). exists M. intros m Hm.
  apply (callH_mono G grow M m); [exact Hm|exact R|discriminate].
Qed.
Lemma text_heap fl src E P o P' p : ok_flags fl = true -> spec_prog fl src = Some (E, P) -> generate fl src = Some o -> declares p (files_of o) P' ->
  forall grow, grows grow -> forall x c h s v s' v', lookup x E = Some c -> gvalid h (h_buf s) -> safe h s v ->
  runs E (CIdent x) (habs h s) (deref h v) s' v' ->
  exists h1 s1 v1, habs h1 s1 = s' /\ deref h1 v1 = v' /\ hstep h s h1 s1 /\ safe h1 s1 v1 /\
    exists M, forall m, (M <= m)%nat -> callH (gp_pkg P') grow m x h s v = GRet (h1, s1, v1).
Proof.
  intros F S Gn D grow Gr x c h s v s' v' Hx Hv Hs R. apply eventually_callH; auto.
  exact (text_effect fl src E P o P' p F S Gn D x c _ _ _ _ Hx R).
Qed.
Definition heap_effect (E : env) (P : gprog) : Prop := forall grow, grows grow ->
  forall x h s v, In x (map fst E) -> has_ty E (CIdent x) (deref h v) -> gvalid h (h_buf s) -> safe h s v ->
  exists h1 s1 v1, runs E (CIdent x) (habs h s) (deref h v) (habs h1 s1) (deref h1 v1) /\ hstep h s h1 s1 /\ safe h1 s1 v1 /\
    exists M, forall m, (M <= m)%nat -> callH (gp_pkg P) grow m x h s v = GRet (h1, s1, v1).
Lemma effect_heap E P : (forall x s v, In x (map fst E) -> has_ty E (CIdent x) v ->
    exists s' v', runs E (CIdent x) s v s' v' /\ exists M, forall m, (M <= m)%nat -> GoSem.call (gp_pkg P) m x s v = GRet (s', v')) -> heap_effect E P.
Proof.
  intros H grow Gr x h s v Hx Ht Hv Hs. destruct (H x (habs h s) (deref h v) Hx Ht) as (s' & v' & R & M).
  destruct (eventually_callH (gp_pkg P) grow x h s v s' v' Gr Hv Hs M) as (h1 & s1 & v1 & <- & <- & K). exists h1, s1, v1. split; [exact R|exact K].
Qed.
Lemma rfc1057_heap P : declares "rfc1057" [rfc1057_xdr_go; rfc1057_types_go] P -> heap_effect rpc_env P.
Proof. intros D. apply effect_heap. exact (rfc1057_effect P D). Qed.
Lemma rfc1813_heap P : declares "rfc1813" [rfc1813_xdr_go; rfc1813_types_go] P -> heap_effect rfc1813_env P.
Proof. intros D. apply effect_heap. exact (rfc1813_effect P D). Qed.

(** ** The method of Rpc_msg *)
Definition msg_fuel : nat := 30.
Definition msg_fits (r : option (env * gprog)) : bool :=
  match r with
  | Some (_, P) => match lookup "Rpc_msg" (g_meths (gp_pkg P)) with Some body => forallb (fits (gp_pkg P) msg_fuel) body | None => false end
  | None => false
  end.
Lemma msg_fits_ok : msg_fits (spec_prog (make_flags "rfc1057") rfc1057_prot_x) = true.
Proof. vm_compute. reflexivity. Qed.
Lemma msg_flat : flat rpc_env msg_fuel msg_t = true /\ zero msg_fuel rpc_env msg_t = Some zero_msg.
Proof. split; vm_compute; reflexivity. Qed.
Lemma msg_call P : declares "rfc1057" [rfc1057_xdr_go; rfc1057_types_go] P -> forall N, (msg_fuel <= N)%nat -> forall s v, vsh v = vsh zero_msg ->
  exists s' v', xdr N rpc_env msg_t s v = Ret (s', v') /\ vsh v' = vsh v /\ GoSem.call (gp_pkg P) msg_fuel "Rpc_msg" s v = GRet (s', v').
Proof.
  intros D N HN s v Hv. destruct rfc1057_committed as (P' & SP & D'). rewrite (declares_det _ _ _ _ _ D D').
  pose proof msg_fits_ok as F. rewrite SP in F. cbn [msg_fits] in F.
  destruct (lookup "Rpc_msg" (g_meths (gp_pkg P'))) as [body|] eqn:Eb; [|discriminate F].
  destruct (flat_total rpc_env msg_fuel msg_t zero_msg (proj1 msg_flat) (proj2 msg_flat) s v Hv) as (s' & v' & R & Sh).
  exists s', v'. split; [apply (xdr_mono msg_fuel); [exact HN|exact R]|]. split; [congruence|].
  destruct (lookup "Rpc_msg" rpc_env) as [c|] eqn:Ec; [|discriminate Ec].
  apply spec_prog_inv in SP. destruct SP as (ds & _ & _ & SU).
  destruct (gen_sim _ ds _ _ SU "Rpc_msg" c s v s' v' Ec (ex_intro _ msg_fuel R)) as [M HM].
  pose proof (call_out (gp_pkg P') msg_fuel "Rpc_msg" body Eb F s v) as NO.
  rewrite <- (HM (Nat.max M msg_fuel) (Nat.le_max_l _ _)). symmetry.
  apply (call_mono (gp_pkg P') msg_fuel); [apply Nat.le_max_r|reflexivity|exact NO].
Qed.

(** Shapes in memory and as values. *)
Lemma vsh_deref h : forall v w, vsh (deref h v) = vsh (deref h w) -> hsh v = hsh w.
Proof.
  fix IH 1. intros [z|b|bs|o|bs|o|o|l] w H.
  - destruct w as [| | |[?|]| | | |]; try discriminate H; reflexivity.
  - destruct w as [| | |[?|]| | | |]; try discriminate H; reflexivity.
  - destruct w as [| | |[?|]| | | |]; try discriminate H; reflexivity.
  - destruct o; destruct w as [| | |[?|]| | | |]; try discriminate H; reflexivity.
  - destruct w as [| | |[?|]| | | |]; try discriminate H; reflexivity.
  - destruct w as [| | |[?|]| | | |]; try discriminate H; reflexivity.
  - destruct w as [| | |[?|]| | | |]; try discriminate H; reflexivity.
  - destruct w as [| | |[?|]| | | |l']; try discriminate H. cbn [deref vsh] in H. injection H as H. cbn [hsh]. f_equal.
    revert l' H. induction l as [|[f x] l IHl]; intros [|[f' x'] l'] H; try discriminate H; [reflexivity|].
    cbn [map mapf fst snd] in H. injection H as H1 H2 H3. cbn [map fst snd]. rewrite (IH x x' H2), (IHl l' H3), H1. reflexivity.
Qed.
Lemma vsh_heap h h' : forall v, vsh (deref h v) = vsh (deref h' v).
Proof.
  fix IH 1. intros [z|b|bs|[o|]|bs|o|o|l]; try reflexivity. cbn [deref vsh]. f_equal.
  induction l as [|[f x] l IHl]; [reflexivity|]. cbn [map mapf fst snd]. rewrite (IH x). f_equal. exact IHl.
Qed.
Lemma gtype_vsh h : forall g g', gtype g = gtype g' -> vsh (deref h (to_h g)) = vsh (deref h (to_h g')).
Proof.
  fix IH 1. intros g g' H. destruct g as [| | | | |o| | | |t fs| | | | | |].
  all: destruct g' as [| | | | |o'| | | |t' fs'| | | | | |]; try discriminate H; try reflexivity.
  all: try (destruct o, o'; reflexivity).
  cbn [gtype] in H. injection H as _ H. cbn [to_h deref vsh]. f_equal. revert fs' H.
  induction fs as [|[f x] fs IHf]; intros [|[f' x'] fs'] H; try discriminate H; [reflexivity|].
  cbn [map fst snd] in H. injection H as H1 H2 H3. cbn [map mapf fst snd]. rewrite (IH x x' H2), H1. f_equal. exact (IHf fs' H3).
Qed.

(** ** The environment *)
Section Env.
Context {S U : Type}.
Variable grow : nat -> nat -> nat.
Hypothesis grow_ok : grows grow.
Variable N : nat.
Variable C : conn S.
Variable rw : nat.
Variable hs : nat -> handler U.
Notation mem := (mem (world S U)).
(** The package that /repo/rfc1057/{xdr,types}.go declare. *)
Variable P : gprog.

(** A call of the method Xdr of Rpc_msg, /repo/rfc1057/xdr.go:27-36, as the text says. *)
Definition text_msg (p q : nat) (m : mem) : outcome (mem * list gv) :=
  match of_state (nth_error (m_cells m) p), nth_error (m_cells m) q with
  | Some s, Some g =>
      match callH (gp_pkg P) grow msg_fuel "Rpc_msg" (m_heap m) s (to_h g) with
      | GRet (h', s', v') => Ret (mkMem h' (SrcSem.set_nth (SrcSem.set_nth (m_cells m) p (vstate s')) q (fill g v')) (m_world m), [])
      | GOut => NoFuel
      | _ => Panic
      end
  | _, _ => Panic
  end.
Definition text_ext (f : string) (args : list gv) (m : mem) : outcome (mem * list gv) :=
  if String.eqb f "Rpc_msg.Xdr" then match args with [WPtr q; WPtr p] => text_msg p q m | _ => Panic end
  else the_ext grow N C hs f args m.

Theorem text_ext_meets : declares "rfc1057" [rfc1057_xdr_go; rfc1057_types_go] P -> (msg_fuel <= N)%nat -> meets grow N C rw hs text_ext.
Proof.
  intros D HN. pose proof (the_ext_meets grow grow_ok N C rw hs) as M. destruct M. constructor; try assumption.
  intros h cs w p q s g Hp Hq Tg Vb Sf. change (text_ext "Rpc_msg.Xdr" _ _) with (text_msg p q (mkMem h cs w)).
  unfold text_msg. cbn [m_cells m_heap m_world]. rewrite Hp, Hq, of_state_inv.
  assert (Hsh : vsh (deref h (to_h g)) = vsh zero_msg).
  { rewrite (gtype_vsh h _ _ Tg), zmsg_zero. reflexivity. }
  destruct (msg_call P D N HN (habs h s) _ Hsh) as (s' & v' & -> & Sh & CL).
  destruct (call_callH _ grow _ _ h s (to_h g) s' v' grow_ok Vb Sf CL) as (h1 & s1 & v1 & -> & A1 & A2 & A3 & A4).
  cbn [agrees fst snd]. exists h1, s1, (fill g v1).
  assert (K : hsh v1 = hsh (to_h g)).
  { apply (vsh_deref h1). rewrite A2, Sh. apply vsh_heap. }
  destruct (fill_ok g v1 K) as [K1 K2].
  split; [reflexivity|]. split; [exact A1|]. split; [rewrite K1; exact A2|]. split; [exact K2|]. apply hstep_tstep. exact A3.
Qed.
End Env.
