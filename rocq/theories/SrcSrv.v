(** /repo/rfc1057/server.go:107-182, as its text says, computes what Server.v says: one request. *)
From Verif Require Import GoLex SrcAst SrcProg.
From Verif Require Import Bytes XdrLib Types Interp Heap HeapP HeapX RpcTypes Io Client ClientP Server SrcSem SrcLib SrcLibB SrcLibC SrcRpc SrcMsg SrcCli SrcCliB SrcReg.
Open Scope string_scope.
Open Scope Z_scope.
Open Scope list_scope.

Local Strategy expand [obind].
Local Strategy opaque [run].

Section Server.
Context {S U : Type}.
Variable grow : nat -> nat -> nat.
Hypothesis grow_ok : grows grow.
Variable N : nat.
Variable C : conn S.
Variable rw : nat.
Variable hs : nat -> handler U.
Variable ext : string -> list gv -> mem (world S U) -> outcome (mem (world S U) * list gv).
Hypothesis M : meets grow N C rw hs ext.
Notation Run := (rpc_run grow ext).
Notation RunX k := (run grow rpc_pkgs rpc_consts rpc_structs rpc_pkg ext (Datatypes.S k)).
Notation Exec k := (exec grow rpc_pkgs rpc_consts rpc_structs (RunX k) (Datatypes.S k)).
Notation Block k := (block grow (RunX k) (Datatypes.S k)).
Notation srv_at := (srv_at hs).

(** Blocks, outside of [exec]. *)
Definition blk (k : nat) (b : list gs) (m : mem (world S U)) (en : genv) : outcome (mem (world S U) * genv * ctl) :=
  '(m, en', c) <- Block k None b m en ;; Ret (m, leave en en', c).
Lemma exec_if k c a b m en : Exec k (SIf c a b) m en =
  obind (eval grow rpc_pkgs rpc_consts rpc_structs (RunX k) c m en) (fun x => let '(m, v) := x in
    match v with WBool true => blk k a m en | WBool false => match b with Some b => blk k b m en | None => Ret (m, en, CNext) end | _ => Panic end).
Proof. reflexivity. Qed.
Definition bafter (k : nat) (b : list gs) (r : mem (world S U) * genv * ctl) : outcome (mem (world S U) * genv * ctl) :=
  let '(m, en, c) := r in match c with CNext => Block k None b m en | CGoto l => Block k (Some l) b m en | CRet vs => Ret (m, en, c) end.
Lemma block_cons k s b m en : Block k None (s :: b) m en = obind (Exec k s m en) (bafter k b).
Proof. reflexivity. Qed.
Lemma block_nil k m en : Block k None [] m en = Ret (m, en, CNext).
Proof. reflexivity. Qed.
Lemma bafter_next k b m en : bafter k b (m, en, CNext) = Block k None b m en.
Proof. reflexivity. Qed.
Lemma bafter_goto k b m en l : bafter k b (m, en, CGoto l) = Block k (Some l) b m en.
Proof. reflexivity. Qed.
Definition nolabel (l : string) (b : list gs) : bool := forallb (fun s => match s with SLabel l' => negb (String.eqb l l') | _ => true end) b.
Lemma block_goto k l b m en : nolabel l b = true -> Block k (Some l) b m en = Ret (m, en, CGoto l).
Proof.
  induction b as [|s b IH]; [reflexivity|]. unfold nolabel. cbn [forallb]. rewrite Bool.andb_true_iff. intros [H J].
  rewrite <- (IH J). destruct s; try reflexivity. rename l0 into label. apply Bool.negb_true_iff in H.
  change (Block k (Some l) (SLabel label :: b) m en) with (if String.eqb l label then Block k None b m en else Block k (Some l) b m en).
  rewrite H. reflexivity.
Qed.

(** server.go:38-41 *)
Definition gsconn (top : nat) : gv := WStruct "serverConn" [("s", WPtr top); ("rw", WObj rw)].

Ltac bstep := rewrite ?bafter_next;
  try match goal with |- context [block _ _ _ None ?B _ _] => is_var B; unfold B; clear B end;
  rewrite ?block_nil;
  try (rewrite block_cons; match goal with |- context [bafter _ ?b] => let T := fresh "more" in set (T := b) end; rewrite ?exec_if);
  gor.

Ltac bgoto := rewrite bafter_goto, block_goto by reflexivity; gor.

(** server.go:125-156 *)
Definition st10 : gs := nth 10 (fbody server_serverConn_handleReqErr) (SLabel "").
Lemma dispatch_text k h cs w own top srv p r q a s1 vb xid rv pg vs pc cred verf rb :
  nth_error cs p = Some (gsconn top) -> srv_at cs own top srv ->
  nth_error cs r = Some (gmsg xid 1 (gcbody 0 0 0 0 (gauth 0 None) (gauth 0 None)) (grbody 0 (gareply (gauth 0 None) 0 [] (gmismatch 0 0)) (grreply 0 (gmismatch 0 0) 0))) ->
  nth_error cs q = Some (gmsg xid 0 (gcbody rv pg vs pc cred verf) rb) ->
  nth_error cs a = Some (vstate s1) -> gvalid h (h_buf s1) -> r <> a -> own r = None ->
  let req := deref h (to_h (gmsg xid 0 (gcbody rv pg vs pc cred verf) rb)) in
  agrees (fun x y => exists h' cs' w' v e g c,
      y = (mkMem h' cs' w', [("resdata", v); ("res", WRef r); ("err", e); ("req", WRef q); ("rd", WPtr a); ("sc", WPtr p); ("buf", vb)], c) /\
      (c = CNext \/ c = CGoto "reply") /\ (e = WNil \/ exists f l, e = WErr f l) /\ w_user w' = fst (fst x) /\ w_conn w' = w_conn w /\ w_log w' = w_log w /\
      differs_at anywhere h h' /\ (forall i, i <> r -> i <> a -> (i < List.length cs)%nat -> nth_error cs' i = nth_error cs i) /\
      nth_error cs' r = Some g /\ gtype g = gtype zmsg /\ hslices (to_h g) = [] /\ deref h' (to_h g) = snd (fst x) /\
      match snd x with
      | None => v = WNil
      | Some y => exists i hv, v = WObj i /\ nth_error (w_objs w') i = Some (xv_env y, xv_ty y, hv) /\ valid_in h' hv /\ deref h' hv = xv_val y
      end)
    (dispatch N srv (w_user w) (habs h s1) req)
    (Exec k st10 (mkMem h cs w) [("resdata", WNil); ("res", WRef r); ("err", WNil); ("req", WRef q); ("rd", WPtr a); ("sc", WPtr p); ("buf", vb)]).
Proof.
  intros Hp (m0 & A & B & T & OT & (l0 & E0 & R) & OR & OA & OB & K) Hr Hq Ha Vb Nra Or req.
  assert (Lr : (r < List.length cs)%nat) by (apply nth_error_Some; congruence).
  match goal with |- agrees ?R _ _ => set (R0 := R) end.
  unfold gsconn, gmsg, gcbody, grbody, gareply, grreply, gmismatch, gauth in Hp, Hr, Hq.
  unfold st10. cbv [nth fbody server_serverConn_handleReqErr]. rewrite exec_if. gor.
  assert (I1 : get_int ["Xid"] req = xid) by reflexivity.
  assert (I2 : get_int ["Body"; "Cbody"; "Rpcvers"] req = rv) by reflexivity.
  assert (I3 : get_int ["Body"; "Cbody"; "Prog"] req = pg) by reflexivity.
  assert (I4 : get_int ["Body"; "Cbody"; "Vers"] req = vs) by reflexivity.
  assert (I5 : get_int ["Body"; "Cbody"; "Proc"] req = pc) by reflexivity.
  unfold dispatch. rewrite I1, I2, I3, I4, I5. clear I1 I2 I3 I4 I5. clearbody req.
  assert (Nrq : r <> q) by (intros ->; rewrite Hr in Hq; discriminate Hq).
  assert (Nrp : r <> p) by (intros ->; rewrite Hr in Hp; discriminate Hp).
  assert (Nrt : r <> top) by congruence. assert (Nr0 : r <> m0) by congruence.
  assert (FIN0 : forall g res c, gtype g = gtype zmsg -> hslices (to_h g) = [] -> deref h (to_h g) = res -> (c = CNext \/ c = CGoto "reply") ->
    R0 (w_user w, res, None) (mkMem h (set_nth cs r g) w, [("resdata", WNil); ("res", WRef r); ("err", WNil); ("req", WRef q); ("rd", WPtr a); ("sc", WPtr p); ("buf", vb)], c)).
  { intros g res c G1 G2 G3 G4. exists h, (set_nth cs r g), w, WNil, WNil, g, c. split; [reflexivity|]. split; [exact G4|]. split; [left; reflexivity|]. do 3 (split; [reflexivity|]).
    split; [apply differs_refl|]. split; [intros i J1 J2 J3; apply get_other; congruence|]. split; [apply get_set; exact Lr|]. split; [exact G1|]. split; [exact G2|]. split; [exact G3|]. reflexivity. }
  destruct (negb (rv =? 2)); gor.
  { unfold blk. bstep. bstep. bstep. apply FIN0; [reflexivity..|auto]. }
  unfold blk. bstep. bstep. rewrite R. pose proof (K pg) as Kp. destruct (srv pg) as [vm|] eqn:Hk.
  2:{ destruct Kp as [KA _]. rewrite KA. cbn [option_map]. gor. bstep. unfold blk. bstep. bstep. bgoto. bgoto. apply FIN0; [reflexivity..|auto]. }
  destruct Kp as (m1 & KA & (l1 & E1 & R1) & KV). rewrite KA. cbn [option_map].
  assert (Nr1 : r <> m1) by (intros ->; rewrite (OA _ _ KA) in Or; discriminate Or).
  gor. bstep. bstep. rewrite R1. specialize (KV vs). destruct (vm vs) as [pm|] eqn:Hv.
  2:{ rewrite KV. cbn [option_map]. gor. bstep. unfold blk. bstep. bstep. bgoto. bgoto. apply FIN0; [reflexivity..|auto]. }
  destruct KV as (m2 & f & KB & (l2 & E2 & R2) & KP). rewrite KB. cbn [option_map].
  assert (Nr2 : r <> m2) by (intros ->; rewrite (OB _ _ _ KB) in Or; discriminate Or).
  gor. bstep. bstep. rewrite R2. specialize (KP pc). unfold entry in KP.
  destruct (pm pc) as [hd|], (f pc) as [hv|]; try contradiction.
  2:{ gor. bstep. unfold blk. bstep. bstep. bgoto. bgoto. apply FIN0; [reflexivity..|auto]. }
  destruct hd as [hd|]; cbn [is_handler] in KP.
  2:{ subst hv. gor. bstep. bstep. rewrite run_ext' by reflexivity. rewrite (m_nil _ _ _ _ _ _ M). exact I. }
  destruct KP as (i & -> & ->). gor. bstep. bstep. rewrite run_ext' by reflexivity.
  match goal with |- context [set_nth cs r ?v] => set (c1 := set_nth cs r v);
    assert (C1r : nth_error c1 r = Some v) by (apply get_set; exact Lr) end.
  assert (C1 : forall j, j <> r -> nth_error c1 j = nth_error cs j) by (intros j J; apply get_other; congruence).
  assert (L1 : List.length c1 = List.length cs) by apply set_nth_len.
  assert (C1a : nth_error c1 a = Some (vstate s1)) by (rewrite C1 by congruence; exact Ha).
  clearbody c1.
  pose proof (m_handler _ _ _ _ _ _ M h c1 w a s1 i C1a Vb) as X.
  destruct (hs i N (habs h s1) (w_user w)) as [[[u rs] e]| |]; cbn [obind];
    [|apply agrees_panic in X; rewrite X; exact I|apply agrees_nofuel in X; rewrite X; exact I].
  apply agrees_ret in X. destruct X as (y & Ey & h2 & c2 & w2 & v & e2 & -> & X1 & X2 & X3 & X4 & X5 & X6 & X7). cbn [fst snd] in *. rewrite Ey. clear Ey.
  assert (C2r := X5 r Nra ltac:(lia)). rewrite C1r in C2r.
  assert (L2 : (r < List.length c2)%nat) by (apply nth_error_Some; congruence).
  assert (FIN1 : forall g res e c, (e = WNil \/ exists f l, e = WErr f l) -> gtype g = gtype zmsg -> hslices (to_h g) = [] -> deref h2 (to_h g) = res -> (c = CNext \/ c = CGoto "reply") ->
    R0 (u, res, rs) (mkMem h2 (set_nth c2 r g) w2, [("resdata", v); ("res", WRef r); ("err", e); ("req", WRef q); ("rd", WPtr a); ("sc", WPtr p); ("buf", vb)], c)).
  { intros g res e' c G0 G1 G2 G3 G4. exists h2, (set_nth c2 r g), w2, v, e', g, c. split; [reflexivity|]. split; [exact G4|]. split; [exact G0|].
    split; [exact X1|]. split; [exact X2|]. split; [exact X3|]. split; [exact X4|].
    split; [intros j J1 J2 J3; rewrite get_other by congruence; rewrite X5 by (try exact J2; lia); apply C1; exact J1|].
    split; [apply get_set; exact L2|]. split; [exact G1|]. split; [exact G2|]. split; [exact G3|]. exact X6. }
  assert (Y1 : like WNil v = v) by (destruct rs; [destruct X6 as (? & ? & -> & _)|rewrite X6]; reflexivity).
  assert (Y2 : like WNil e2 = e2) by (destruct e; [destruct X7 as (? & ? & ->)|rewrite X7]; reflexivity).
  gor. rewrite Y1, Y2. clear Y1 Y2.
  destruct e as [e|]; [destruct X7 as (x1 & x2 & ->)|subst e2].
  - bstep. unfold blk. bstep. bstep. bgoto. apply FIN1; [right; eauto|reflexivity..|auto].
  - bstep. bstep. bstep. apply FIN1; [left; reflexivity|reflexivity..|auto].
Qed.
End Server.
