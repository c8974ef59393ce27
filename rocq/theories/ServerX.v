(** More server lemmas: stubs at the level of messages, framing, credentials, trailing bytes. *)
From Verif Require Import Bytes XdrLib Types Interp Spec Prim Meta Enc Dec Total Canon Runs Codec Codec2 Inv
  RpcTypes RpcSpec RpcWire RpcDec Io Client CallSpec ClientP Server ServSpec ServerP ServerQ.
Open Scope string_scope.
Open Scope Z_scope.
Open Scope list_scope.

Lemma arg_det E targ args x y : arg_decodes E targ args x -> arg_decodes E targ args y -> x = y.
Proof.
  unfold arg_decodes. destruct targ as [t|]; [|congruence].
  intros (z & rest & v & [k Hf] & Hd & ->) (z' & rest' & v' & [k' Hf'] & Hd' & ->).
  apply (zero_mono_eq E k (k + k')) in Hf; [|lia]. apply (zero_mono_eq E k' (k + k')) in Hf'; [|lia].
  assert (z' = z) by congruence. subst. destruct (runs_det _ _ _ _ _ _ _ _ Hd Hd') as [_ ->]. reflexivity.
Qed.

Section P.
Context {W : Type}.
Implicit Types srv : server W.
Implicit Types l : list (registration W).

Section Stub.
Variables (E : env) (targ tres : option cty) (user : option val -> W -> outcome (W * option val)).
Hypothesis Hu : user_ok E targ tres user.

Lemma u_ok : handler_ok (stub E targ tres user).
Proof. destruct Hu as (H1 & H2 & H3). apply stub_ok; assumption. Qed.

Lemma arg_dec args : (exists x, arg_decodes E targ args x) \/
  (forall w, exists e, HRuns (stub E targ tres user) (MakeReader args) w (w, None, Some e)) /\
  forall x, ~ arg_decodes E targ args x.
Proof.
  destruct Hu as (H1 & H2 & H3). unfold arg_decodes. destruct targ as [t|] eqn:Et; [|left; eauto].
  destruct (H1 t eq_refl) as (D & HwE & Hwt & Hz). destruct (zero D E t) as [z|] eqn:Ez; [|contradiction].
  assert (Hf : fresh E t z) by (exists D; exact Ez).
  destruct (c36_decode_dec E (Some t) H1 t args z eq_refl Hf) as [(rest & x & Hd)|(e & x & Hd)].
  - left. exists (Some x), z, rest, x. auto.
  - right. split.
    + intros w. exists e. eapply c36_bad; eauto.
    + intros y (z' & rest & v & Hf' & [n Hd'] & _).
      assert (z' = z). { destruct Hf' as [k Hk]. apply (zero_mono_eq E k (k + D)) in Hk; [|lia].
        apply (zero_mono_eq E D (k + D)) in Ez; [|lia]. congruence. }
      subst z'. apply Decode_runs in Hd. destruct Hd as (s & Hr & He).
      destruct (runs_det _ _ _ _ _ _ _ _ (ex_intro _ n Hd') Hr) as [<- _]. discriminate.
Qed.

Lemma stub_runs args x w w' y : arg_decodes E targ args x -> user x w = Ret (w', y) ->
  HRuns (stub E targ tres user) (MakeReader args) w (w', Some (stub_res E tres y), None).
Proof.
  destruct Hu as (H1 & H2 & H3). unfold arg_decodes. destruct targ as [t|] eqn:Et.
  - intros (z & rest & v & Hf & Hd & ->) Hr. eapply c36_run; try eassumption. reflexivity.
  - intros -> Hr. eapply c36_void; try eassumption. reflexivity.
Qed.

(** Conversely the stub returns only if the procedure did. *)
Lemma stub_inv args x w w' o e : arg_decodes E targ args x ->
  HRuns (stub E targ tres user) (MakeReader args) w (w', o, e) ->
  exists y, user x w = Ret (w', y) /\ o = Some (stub_res E tres y) /\ e = None.
Proof.
  destruct Hu as (H1 & H2 & H3). intros Ha [n H]. unfold stub in H. unfold stub_res.
  apply obind_ret in H. destruct H as ([a x'] & Hx & H).
  assert (Ex : x' = x /\ (targ = None \/ Error a = None)).
  { unfold arg_decodes in Ha. destruct targ as [t|].
    - destruct Ha as (z & rest & v & [k Hf] & [m Hd] & ->).
      destruct (zero n E t) as [z'|] eqn:Ez; [|discriminate].
      assert (z' = z). { apply (zero_mono_eq E k (k + n)) in Hf; [|lia].
        apply (zero_mono_eq E n (k + n)) in Ez; [|lia]. congruence. }
      subst z'. apply obind_ret in Hx. destruct Hx as ([s1 v1] & Hx & K). injection K as <- <-.
      destruct (runs_det _ _ _ _ _ _ _ _ (ex_intro _ m Hd) (ex_intro _ n Hx)) as [<- <-]. auto.
    - injection Hx as _ <-. auto. }
  destruct Ex as [-> Ea].
  assert (HU : ('r <- user x w ;; (let '(w', y) := r in
      match tres, y with
      | None, _ => Ret (w', Some xv_void, None)
      | Some t, Some y => Ret (w', Some (mkXv E t y), None)
      | Some _, None => Panic
      end)) = Ret (w', o, e)).
  { destruct targ as [t|]; [|exact H]. destruct Ea as [Ea|Ea]; [discriminate|]. rewrite Ea in H. exact H. }
  apply obind_ret in HU. destruct HU as ([w1 y] & Hr & K). exists y. pose proof (H3 _ _ _ _ Hr) as Ht.
  destruct tres as [t|].
  - destruct Ht as (v & -> & _). injection K as <- <- <-. auto.
  - injection K as <- <- <-. auto.
Qed.

(** *** C36 *)
Section Call.
Variables (srv : server W) (l : list (registration W)) (w : W).
Variables (buf : list byte) (xid prog vers proc f1 : Z) (b1 : list byte) (f2 : Z) (b2 args : list byte).
Hypothesis Hr : reach srv l.
Hypothesis Hg : regs_ok l.
Hypothesis Hc : is_call DEC buf xid 2 prog vers proc f1 b1 f2 b2 args.
Variable h : handler W.
Hypothesis Hh : agrees h (stub E targ tres user).
Hypothesis Hl : last_for l prog vers proc (Some h).

Lemma h36_good x w' y b : arg_decodes E targ args x -> user x w = Ret (w', y) ->
  res_wire (Some (stub_res E tres y)) b -> sends srv w buf w' (reply_accepted xid null_auth 0 ++ b).
Proof.
  intros Ha Hx Hb. eapply c34_success; try eassumption; [reflexivity|]. apply Hh. eapply stub_runs; eassumption.
Qed.

Lemma h36_garbage : (forall x, ~ arg_decodes E targ args x) -> sends srv w buf w (reply_accepted xid null_auth 4).
Proof.
  intros Hn. destruct (arg_dec args) as [[x Hx]|[He _]]; [exfalso; eapply Hn; exact Hx|].
  destruct (He w) as [e He']. apply Hh in He'. rewrite <- (app_nil_r (reply_accepted _ _ _)).
  eapply c34_garbage; try eassumption; reflexivity.
Qed.

Lemma h36_only S (C : conn S) s s' w' e : Handles C srv s w buf s' w' e ->
  (exists x y, arg_decodes E targ args x /\ user x w = Ret (w', y)) \/
  (w' = w /\ forall x, ~ arg_decodes E targ args x).
Proof.
  intros H. destruct (arg_dec args) as [[x Hx]|[He Hn]].
  - left. destruct (Handles_makes _ _ _ _ _ _ _ _ H) as (n & out & Hm & _).
    destruct (decision_complete _ _ _ _ _ _ _ _ _ _ _ _ _ _ _ _ _ Hr Hg Hc Hm) as (hdr & res & Hd).
    { intros N m r HN HH. eapply make_reply_mono; eassumption. }
    apply (c33_find _ _ _ _ _ _ Hr) in Hl. unfold find3 in Hl.
    destruct Hd as [Hv|Hv Hp|vm Hv Hp Hq|vm pm Hv Hp Hq Hs|h' w' res e' Hv Hf _ HR|h' w' res Hv Hf _ HR].
    + congruence.
    + rewrite Hp in Hl. discriminate.
    + rewrite Hp, Hq in Hl. discriminate.
    + rewrite Hp, Hq, Hs in Hl. discriminate.
    + unfold find3 in Hf. rewrite Hl in Hf. injection Hf as <-. apply Hh in HR.
      destruct (stub_inv _ _ _ _ _ _ Hx HR) as (y & Hy & _). eauto.
    + unfold find3 in Hf. rewrite Hl in Hf. injection Hf as <-. apply Hh in HR.
      destruct (stub_inv _ _ _ _ _ _ Hx HR) as (y & Hy & _). eauto.
  - right. split; [|exact Hn].
    destruct (Handles_det _ _ _ _ _ _ _ _ _ _ _ _ Hr Hg H (h36_garbage Hn _ C s)) as (_ & E' & _). exact E'.
Qed.
End Call.
Lemma agrees_refl (h : handler W) : agrees h h.
Proof. intros s w r. reflexivity. Qed.
Lemma c36_good srv l w buf xid prog vers proc f1 b1 f2 b2 args : reach srv l -> regs_ok l -> is_call DEC buf xid 2 prog vers proc f1 b1 f2 b2 args ->
  last_for l prog vers proc (Some (stub E targ tres user)) -> forall x w' y b, arg_decodes E targ args x -> user x w = Ret (w', y) ->
  res_wire (Some (stub_res E tres y)) b -> sends srv w buf w' (reply_accepted xid null_auth 0 ++ b).
Proof. intros Hr Hg Hc Hl. exact (h36_good _ _ _ _ _ _ _ _ _ _ _ _ _ Hr Hg Hc _ (agrees_refl _) Hl). Qed.
Lemma c36_garbage srv l w buf xid prog vers proc f1 b1 f2 b2 args : reach srv l -> regs_ok l -> is_call DEC buf xid 2 prog vers proc f1 b1 f2 b2 args ->
  last_for l prog vers proc (Some (stub E targ tres user)) -> (forall x, ~ arg_decodes E targ args x) -> sends srv w buf w (reply_accepted xid null_auth 4).
Proof. intros Hr Hg Hc Hl. exact (h36_garbage _ _ _ _ _ _ _ _ _ _ _ _ _ Hr Hg Hc _ (agrees_refl _) Hl). Qed.
Lemma c36_only srv l w buf xid prog vers proc f1 b1 f2 b2 args : reach srv l -> regs_ok l -> is_call DEC buf xid 2 prog vers proc f1 b1 f2 b2 args ->
  last_for l prog vers proc (Some (stub E targ tres user)) -> forall S (C : conn S) s s' w' e, Handles C srv s w buf s' w' e ->
  (exists x y, arg_decodes E targ args x /\ user x w = Ret (w', y)) \/ (w' = w /\ forall x, ~ arg_decodes E targ args x).
Proof. intros Hr Hg Hc Hl. exact (h36_only _ _ _ _ _ _ _ _ _ _ _ _ _ Hr Hg Hc _ (agrees_refl _) Hl). Qed.

(** Trailing bytes. *)
Lemma arg_trailing args extra x : arg_decodes E targ args x -> arg_decodes E targ (args ++ extra) x.
Proof.
  destruct Hu as (H1 & _). unfold arg_decodes. destruct targ as [t|]; [|trivial].
  intros (z & rest & v & Hf & Hd & ->). destruct (H1 t eq_refl) as (D & HwE & Hwt & Hz).
  destruct (c11_local D E t HwE Hwt _ _ _ _ Hd) as (w0 & -> & HL).
  exists z, (rest ++ extra), v. rewrite <- app_assoc. auto.
Qed.

Lemma stub_trailing args extra x w r : arg_decodes E targ args x ->
  (HRuns (stub E targ tres user) (MakeReader args) w r <->
   HRuns (stub E targ tres user) (MakeReader (args ++ extra)) w r).
Proof.
  intros Ha. pose proof (arg_trailing _ extra _ Ha) as Hb. destruct r as [[w' o] e]. split; intros H.
  - destruct (stub_inv _ _ _ _ _ _ Ha H) as (y & Hy & -> & ->). eapply stub_runs; eassumption.
  - destruct (stub_inv _ _ _ _ _ _ Hb H) as (y & Hy & -> & ->). eapply stub_runs; eassumption.
Qed.

(** *** C46: never a result and an error together *)
Lemma c46_stub s w w' o e : HRuns (stub E targ tres user) s w (w', o, Some e) -> o = None.
Proof.
  destruct Hu as (H1 & H2 & H3). intros [n H]. apply stub_ret in H; [|assumption..].
  destruct H as [(x & y & _ & _ & K)|(_ & K & _)]; [discriminate|exact K].
Qed.
End Stub.

(** *** C45 *)
Lemma handles_args srv l w buf buf' xid rv prog vers proc f1 b1 f2 b2 args f1' b1' f2' b2' args' :
  reach srv l -> regs_ok l ->
  is_call DEC buf xid rv prog vers proc f1 b1 f2 b2 args ->
  is_call DEC buf' xid rv prog vers proc f1' b1' f2' b2' args' ->
  (forall h r, rv = 2 -> last_for l prog vers proc (Some h) -> HRuns h (MakeReader args) w r ->
     HRuns h (MakeReader args') w r) ->
  forall S (C : conn S) s s' w' e, Handles C srv s w buf s' w' e -> Handles C srv s w buf' s' w' e.
Proof.
  intros Hr Hg Hc Hc' HH S C s s' w' e [n H]. unfold handleReqErr in H.
  destruct (make_reply_call _ _ _ _ _ _ _ _ _ _ _ srv w Hc) as [N HN].
  destruct (make_reply_call _ _ _ _ _ _ _ _ _ _ _ srv w Hc') as [N' HN'].
  apply obind_ret in H. destruct H as (a & Ha & H).
  apply (make_reply_mono _ _ _ _ n (n + N) _ Hr Hg ltac:(lia)) in Ha. rewrite HN in Ha by lia.
  destruct (negb (rv =? 2)) eqn:Erv.
  { exists (n + N + N')%nat. unfold handleReqErr. rewrite HN' by lia. cbn [obind] in Ha |- *.
    rewrite (finish_mono (n + N) (n + N + N') _ _ _ _ ltac:(lia) Ha). exact H. }
  apply negb_false_iff, Z.eqb_eq in Erv.
  destruct (srv prog) as [vm|] eqn:E1.
  2:{ exists (n + N + N')%nat. unfold handleReqErr. rewrite HN' by lia. cbn [obind] in Ha |- *.
    rewrite (finish_mono (n + N) (n + N + N') _ _ _ _ ltac:(lia) Ha). exact H. }
  destruct (vm vers) as [pm|] eqn:E2.
  2:{ exists (n + N + N')%nat. unfold handleReqErr. rewrite HN' by lia. cbn [obind] in Ha |- *.
    rewrite (finish_mono (n + N) (n + N + N') _ _ _ _ ltac:(lia) Ha). exact H. }
  destruct (pm proc) as [[h|]|] eqn:E3.
  2:{ discriminate. }
  2:{ exists (n + N + N')%nat. unfold handleReqErr. rewrite HN' by lia. cbn [obind] in Ha |- *.
    rewrite (finish_mono (n + N) (n + N + N') _ _ _ _ ltac:(lia) Ha). exact H. }
  assert (Hl : last_for l prog vers proc (Some h)).
  { apply (c33_find _ _ _ _ _ _ Hr). unfold find3. rewrite E1, E2. exact E3. }
  destruct (find_ok _ _ _ _ _ _ Hr Hg Hl) as [_ [Hmono _]].
  apply obind_ret in Ha. destruct Ha as (d & Hd & Ha). apply obind_ret in Hd. destruct Hd as (r & Hh & Hd).
  destruct (HH h r Erv Hl (ex_intro _ _ Hh)) as [m Hm].
  exists (n + N + N' + m)%nat. unfold handleReqErr. rewrite HN' by lia.
  rewrite (Hmono m (n + N + N' + m)%nat _ _ _ ltac:(lia) Hm). cbn [obind].
  destruct r as [[w1 o] [e1|]]; injection Hd as <-; cbn [obind] in *;
    rewrite (finish_mono (n + N) (n + N + N' + m) _ _ _ _ ltac:(lia) Ha); exact H.
Qed.

Lemma call_trailing buf xid rv prog vers proc f1 b1 f2 b2 args extra :
  is_call DEC buf xid rv prog vers proc f1 b1 f2 b2 args ->
  is_call DEC (buf ++ extra) xid rv prog vers proc f1 b1 f2 b2 (args ++ extra).
Proof.
  intros (H1 & H2 & H3 & H4 & H5 & cred & verf & H6 & H7 & ->). repeat split; try assumption; try lia;
  try (apply H1); try (apply H2); try apply H3; try apply H4; try apply H5.
  exists cred, verf. rewrite app_assoc. auto.
Qed.

Lemma c45_server srv l w buf xid rv prog vers proc f1 b1 f2 b2 args extra :
  reach srv l -> regs_ok l -> is_call DEC buf xid rv prog vers proc f1 b1 f2 b2 args ->
  (forall h, rv = 2 -> last_for l prog vers proc (Some h) ->
     exists E targ tres user x, user_ok E targ tres user /\ h = stub E targ tres user /\ arg_decodes E targ args x) ->
  forall S (C : conn S) s s' w' e,
    Handles C srv s w buf s' w' e <-> Handles C srv s w (buf ++ extra) s' w' e.
Proof.
  intros Hr Hg Hc Hh S C s s' w' e. pose proof (call_trailing _ _ _ _ _ _ _ _ _ _ _ extra Hc) as Hc'.
  split.
  - eapply handles_args; try eassumption. intros h r Hv Hl Hx.
    destruct (Hh h Hv Hl) as (E & targ & tres & user & x & Hu & -> & Ha).
    apply (stub_trailing E targ tres user Hu args extra x w r Ha). exact Hx.
  - eapply handles_args; try eassumption. intros h r Hv Hl Hx.
    destruct (Hh h Hv Hl) as (E & targ & tres & user & x & Hu & -> & Ha).
    apply (stub_trailing E targ tres user Hu args extra x w r Ha). exact Hx.
Qed.

(** *** C44 *)
Lemma c44_auth_error xid rep : u32 xid ->
   (rep = reply_denied_mismatch xid 0 0 \/
     (exists stat b, rep = reply_accepted xid null_auth stat ++ b)) ->
  forall x t, u32 x -> rep <> be4 x ++ be4 1 ++ be4 1 ++ be4 1 ++ t.
Proof.
  intros Hx H x t Hx' E.
  assert (K : skipn 8 rep = be4 1 ++ be4 1 ++ t) by (rewrite E; reflexivity).
  destruct H as [->|(stat & b & ->)].
  - unfold reply_denied_mismatch in K. change (be4 1 ++ be4 0 ++ be4 0 ++ be4 0 = be4 1 ++ be4 1 ++ t) in K.
    apply app_inv_head in K. apply (f_equal (firstn 4)) in K.
    change (be4 0 = be4 1) in K. apply be4_inj in K; [discriminate|apply u32_0|apply u32_1].
  - change (be4 0 ++ (null_auth ++ be4 stat) ++ b = be4 1 ++ be4 1 ++ t) in K.
    apply (f_equal (firstn 4)) in K.
    change (be4 0 = be4 1) in K. apply be4_inj in K; [discriminate|apply u32_0|apply u32_1].
Qed.

Lemma c44_no_auth_error srv l S (C : conn S) s w buf s' log w' e : reach srv l -> regs_ok l ->
  Handles (logged C) srv (s, []) w buf (s', log) w' e ->
  forall rep x t, In (mark (zlen rep) ++ rep) log -> u32 x -> rep <> be4 x ++ be4 1 ++ be4 1 ++ be4 1 ++ t.
Proof.
  intros Hr Hg H rep x t Hin Hx. destruct (c37 _ _ _ _ _ _ _ _ _ _ _ Hr Hg H) as [->|(xid & rep' & Hxid & -> & _ & Hrep)]; [destruct Hin|].
  destruct Hin as [Hin|[]]. assert (rep' = rep).
  { apply (f_equal (skipn 4)) in Hin. exact Hin. }
  subst rep'. eapply c44_auth_error; [exact Hxid| |exact Hx].
  destruct Hrep as [->|[(st & _ & ->)|[->|(st & h & a & res & e' & b & _ & _ & _ & ->)]]]; eauto.
  right. exists st, []. rewrite app_nil_r. reflexivity.
Qed.

(** Over-long credentials. *)
Lemma app4 (a b c d : list byte) : List.length a = 4%nat -> List.length c = 4%nat -> a ++ b = c ++ d -> a = c /\ b = d.
Proof.
  intros Ha Hc H. destruct a as [|a1 [|a2 [|a3 [|a4 [|]]]]]; try discriminate Ha.
  destruct c as [|c1 [|c2 [|c3 [|c4 [|]]]]]; try discriminate Hc.
  injection H as <- <- <- <- <-. auto.
Qed.

Lemma c44_cred xid rv prog vers proc f len rest : u32 len -> 400 < len ->
  no_call (be4 xid ++ be4 0 ++ be4 rv ++ be4 prog ++ be4 vers ++ be4 proc ++ be4 f ++ be4 len ++ rest).
Proof.
  intros Hlen Hgt x v p q c f1 b1 f2 b2 args (_ & _ & _ & _ & _ & cred & verf & Ha & _ & E).
  inversion Ha as [pad Hf Hb Hp Hw]. subst cred. unfold call_hdr in E. rewrite <- !app_assoc in E.
  do 7 (apply app4 in E; [|apply be4_len|apply be4_len]; destruct E as [_ E]).
  apply app4 in E; [|apply be4_len|apply be4_len]. destruct E as [E _].
  apply be4_inj in E; [lia|exact Hlen|]. unfold u32. pose proof (zlen_nonneg b1). lia.
Qed.

Lemma c44_verf xid rv prog vers proc f1 b1 cred f len rest : auth DEC f1 b1 cred -> u32 len -> 400 < len ->
  no_call (be4 xid ++ be4 0 ++ be4 rv ++ be4 prog ++ be4 vers ++ be4 proc ++ cred ++ be4 f ++ be4 len ++ rest).
Proof.
  intros Hc Hlen Hgt x v p q c f1' b1' f2 b2 args (_ & _ & _ & _ & _ & cred' & verf & Ha & Hv & E).
  unfold call_hdr in E. rewrite <- !app_assoc in E.
  do 6 (apply app4 in E; [|apply be4_len|apply be4_len]; destruct E as [_ E]).
  assert (Hl : List.length cred = List.length cred').
  { inversion Hc as [pad Hf Hb (Hp & Hq & _) Hw]. inversion Ha as [pad' Hf' Hb' (Hp' & Hq' & _) Hw']. subst cred cred'.
    rewrite <- !app_assoc in E.
    apply app4 in E; [|apply be4_len|apply be4_len]. destruct E as [_ E].
    apply app4 in E; [|apply be4_len|apply be4_len]. destruct E as [E _].
    apply be4_inj in E; [|unfold u32; pose proof (zlen_nonneg b1); lia|unfold u32; pose proof (zlen_nonneg b1'); lia].
    assert (Eb : List.length b1 = List.length b1') by (unfold zlen in E; lia).
    rewrite !app_length, !be4_len. rewrite Eb in Hq |- *. clear - Hp Hp' Hq Hq'.
    rewrite Nat2Z.inj_add in Hq, Hq'. Z.div_mod_to_equations. lia. }
  assert (E2 : be4 f ++ be4 len ++ rest = verf ++ args).
  { apply (f_equal (skipn (List.length cred))) in E. rewrite (skipn_app _ cred), skipn_all, Nat.sub_diag in E.
    rewrite Hl, (skipn_app _ cred'), skipn_all, Nat.sub_diag in E. exact E. }
  clear E. rename E2 into E.
  inversion Hv as [pad Hf Hb Hp Hw]. subst verf. rewrite <- !app_assoc in E.
  apply app4 in E; [|apply be4_len|apply be4_len]. destruct E as [_ E].
  apply app4 in E; [|apply be4_len|apply be4_len]. destruct E as [E _].
  apply be4_inj in E; [lia|exact Hlen|]. unfold u32. pose proof (zlen_nonneg b2). lia.
Qed.
End P.

(** *** C43 *)
Lemma run_loop_acc {S} n (C : conn S) s acc :
  run_loop n C s acc = match run_loop n C s [] with
                       | Ret (s', l, e) => Ret (s', acc ++ l, e) | Panic => Panic | NoFuel => NoFuel end.
Proof.
  revert s acc. induction n as [|n IH]; intros s acc; [reflexivity|]. cbn [run_loop].
  destruct (read_full n C s 4 []) as [[[s1 hdr] [e|]]| |]; cbn [obind]; try reflexivity.
  { rewrite app_nil_r. reflexivity. }
  destruct (Z.land (get_u32 hdr) (2 ^ 31) =? 0). { rewrite app_nil_r. reflexivity. }
  destruct (read_full n C s1 _ []) as [[[s2 buf] [e|]]| |]; cbn [obind]; try reflexivity.
  { rewrite app_nil_r. reflexivity. }
  rewrite (IH s2 (acc ++ [buf])), (IH s2 ([] ++ [buf])). destruct (run_loop n C s2 []) as [[[s' l] e]| |]; try reflexivity.
  rewrite <- app_assoc. reflexivity.
Qed.

Lemma run_loop_mono {S} n m (C : conn S) s acc r : (n <= m)%nat ->
  run_loop n C s acc = Ret r -> run_loop m C s acc = Ret r.
Proof.
  revert m s acc. induction n as [|n IH]; intros m s acc Hm H; [discriminate|].
  destruct m as [|m]; [lia|]. cbn [run_loop] in *. apply obind_ret in H. destruct H as ([[s1 hdr] e1] & H1 & H).
  rewrite (read_full_mono n m _ _ _ _ _ ltac:(lia) H1). cbn [obind]. destruct e1; [exact H|].
  destruct (Z.land (get_u32 hdr) (2 ^ 31) =? 0); [exact H|].
  apply obind_ret in H. destruct H as ([[s2 buf] e2] & H2 & H).
  rewrite (read_full_mono n m _ _ _ _ _ ltac:(lia) H2). cbn [obind]. destruct e2; [exact H|].
  apply IH; [lia|exact H].
Qed.

(** No complete record at the front. *)
Definition no_record (b : list byte) : Prop := forall m rest, zlen m < 2 ^ 31 -> b <> record m ++ rest.

Lemma hdr_u32 d : List.length d = 4%nat -> get_u32 d = be_val d /\ u32 (be_val d).
Proof. intros H. split; [apply get_u32_val; exact H|]. apply (be4_be_val d H). Qed.

Lemma stop_loop cs en out rest : chunks_ok cs -> List.concat cs = rest -> no_record rest ->
  exists N s' e, forall n, (N <= n)%nat -> run_loop n stream_conn (mkStream cs en out) [] = Ret (s', [], e) /\
    si_out s' = out /\
    (e = RFragments <-> exists hdr t, rest = hdr ++ t /\ List.length hdr = 4%nat /\ be_val hdr < 2 ^ 31).
Proof.
  intros Hc E Hn. destruct (Nat.ltb_spec (List.length rest) 4) as [Hl|Hl].
  { destruct (read_full_stream_short cs en out 4 [] Hc ltac:(rewrite E; exact Hl)) as (N & e & H).
    exists (S N), (mkStream [] en out), (RIo e). intros [|n] Hnn; [lia|]. cbn [run_loop]. rewrite H by lia. cbn [obind].
    split; [reflexivity|]. split; [reflexivity|]. split; [discriminate|].
    intros (hdr & t & E' & Hh & _). rewrite E', app_length in Hl. lia. }
  destruct (read_full_stream cs en out 4 [] Hc ltac:(rewrite E; exact Hl)) as (N & cs' & Hc' & E' & H).
  rewrite E in E', H. cbn [app] in H. set (hdr := firstn 4 rest) in *.
  assert (Hh : List.length hdr = 4%nat) by (apply firstn_length_le; exact Hl).
  assert (Er : rest = hdr ++ skipn 4 rest) by (symmetry; apply firstn_skipn).
  destruct (hdr_u32 hdr Hh) as [Eg Hu].
  destruct (Z.ltb_spec (be_val hdr) (2 ^ 31)) as [Hb|Hb].
  { exists (S N), (mkStream cs' en out), RFragments. intros [|n] Hnn; [lia|]. cbn [run_loop]. rewrite H by lia. cbn [obind].
    rewrite Eg, (last_frag _ Hu). destruct (Z.ltb_spec (be_val hdr) (2 ^ 31)); [|lia].
    split; [reflexivity|]. split; [reflexivity|]. split; [|reflexivity]. intros _. exists hdr, (skipn 4 rest). auto. }
  destruct (Nat.ltb_spec (List.length (skipn 4 rest)) (Z.to_nat (be_val hdr - 2 ^ 31))) as [Hs|Hs].
  2:{ exfalso. set (k := Z.to_nat (be_val hdr - 2 ^ 31)) in *. set (m := firstn k (skipn 4 rest)).
      assert (Hm : zlen m = be_val hdr - 2 ^ 31).
      { unfold zlen, m. rewrite firstn_length_le by exact Hs. unfold k. lia. }
      apply (Hn m (skipn k (skipn 4 rest))); [rewrite Hm; destruct Hu; lia|].
      unfold record. rewrite Hm. replace (2 ^ 31 + (be_val hdr - 2 ^ 31)) with (be_val hdr) by lia.
      rewrite <- (proj1 (be4_be_val hdr Hh)), <- app_assoc. unfold m. rewrite firstn_skipn. exact Er. }
  destruct (read_full_stream_short cs' en out (Z.to_nat (be_val hdr - 2 ^ 31)) [] Hc' ltac:(rewrite E'; exact Hs)) as (N2 & e & H2).
  exists (S (N + N2)), (mkStream [] en out), (RIo e). intros [|n] Hnn; [lia|]. cbn [run_loop]. rewrite H by lia. cbn [obind].
  rewrite Eg, (last_frag _ Hu). destruct (Z.ltb_spec (be_val hdr) (2 ^ 31)); [lia|].
  rewrite low31 by (assumption || lia). rewrite H2 by lia. cbn [obind].
  split; [reflexivity|]. split; [reflexivity|]. split; [discriminate|].
  intros (hdr' & t & Er' & Hh' & Hb'). rewrite Er in Er'. apply app4 in Er'; [|assumption..].
  destruct Er' as [<- _]. lia.
Qed.

Lemma c43 ms : forall cs en out rest, chunks_ok cs ->
  List.concat cs = List.concat (map record ms) ++ rest -> Forall (fun m => zlen m < 2 ^ 31) ms -> no_record rest ->
  exists N s' e, forall n, (N <= n)%nat -> run_loop n stream_conn (mkStream cs en out) [] = Ret (s', ms, e) /\
    si_out s' = out /\
    (e = RFragments <-> exists hdr t, rest = hdr ++ t /\ List.length hdr = 4%nat /\ be_val hdr < 2 ^ 31).
Proof.
  induction ms as [|m ms IH]; intros cs en out rest Hc E Hs Hn; [apply stop_loop; assumption|].
  inversion Hs as [|? ? Hm Hs']; subst. cbn [map List.concat] in E. rewrite <- app_assoc in E.
  unfold record at 1 in E. rewrite <- app_assoc in E. set (hdr := be4 (2 ^ 31 + zlen m)) in *.
  pose proof (zlen_nonneg m) as Hm0.
  assert (Hh : List.length hdr = 4%nat) by reflexivity.
  destruct (read_full_stream cs en out 4 [] Hc) as (N & cs' & Hc' & E' & H).
  { rewrite E, app_length, Hh. lia. }
  rewrite E in E', H. change (skipn 4 (hdr ++ ?x)) with x in E'. change (firstn 4 (hdr ++ _)) with hdr in H.
  destruct (hdr_u32 hdr Hh) as [Eg Hu].
  assert (Ev : be_val hdr = 2 ^ 31 + zlen m) by (apply be4_val; unfold u32; lia).
  destruct (read_full_stream cs' en out (List.length m) [] Hc') as (N2 & cs2 & Hc2 & E2 & H2).
  { rewrite E', app_length. lia. }
  rewrite E' in E2, H2. rewrite skipn_app, skipn_all, Nat.sub_diag in E2. cbn [app skipn] in E2.
  rewrite firstn_app, firstn_all, Nat.sub_diag in H2. cbn [app firstn] in H2. rewrite app_nil_r in H2.
  destruct (IH cs2 en out rest Hc2 E2 Hs' Hn) as (N3 & s' & e & H3).
  exists (S (N + N2 + N3)), s', e. intros [|n] Hnn; [lia|]. cbn [run_loop]. rewrite H by lia. cbn [app obind].
  rewrite Eg, (last_frag _ Hu). destruct (Z.ltb_spec (be_val hdr) (2 ^ 31)); [lia|].
  rewrite low31 by (assumption || lia). rewrite Ev. replace (Z.to_nat (2 ^ 31 + zlen m - 2 ^ 31)) with (List.length m) by (unfold zlen; lia).
  rewrite H2 by lia. cbn [obind]. rewrite run_loop_acc. destruct (H3 n ltac:(lia)) as (-> & Ho & Hi).
  split; [reflexivity|]. auto.
Qed.

Lemma record_dec b : (exists m rest, zlen m < 2 ^ 31 /\ b = record m ++ rest) \/ no_record b.
Proof.
  destruct (Nat.ltb_spec (List.length b) 4) as [Hl|Hl].
  { right. intros m rest _ ->. unfold record in Hl. rewrite !app_length, be4_len in Hl. lia. }
  set (hdr := firstn 4 b). set (t := skipn 4 b).
  assert (Hh : List.length hdr = 4%nat) by (apply firstn_length_le; exact Hl).
  assert (Er : b = hdr ++ t) by (symmetry; apply firstn_skipn).
  destruct (be4_be_val hdr Hh) as [Eh Hu].
  destruct (Z.ltb_spec (be_val hdr) (2 ^ 31)) as [Hb|Hb].
  { right. intros m rest Hm E. rewrite E in Er. unfold record in Er. rewrite <- app_assoc in Er.
    apply app4 in Er; [|apply be4_len|exact Hh]. destruct Er as [Er _]. rewrite <- Er in Hb.
    pose proof (zlen_nonneg m). rewrite be4_val in Hb; [lia|unfold u32; lia]. }
  destruct (Nat.ltb_spec (List.length t) (Z.to_nat (be_val hdr - 2 ^ 31))) as [Hs|Hs].
  { right. intros m rest Hm E. rewrite E in Er. unfold record in Er. rewrite <- app_assoc in Er.
    apply app4 in Er; [|apply be4_len|exact Hh]. destruct Er as [Er Et]. rewrite <- Er in Hs.
    pose proof (zlen_nonneg m). rewrite be4_val in Hs; [|unfold u32; lia].
    rewrite <- Et, app_length in Hs. unfold zlen in Hs. lia. }
  left. set (k := Z.to_nat (be_val hdr - 2 ^ 31)) in *. exists (firstn k t), (skipn k t).
  assert (Hm : zlen (firstn k t) = be_val hdr - 2 ^ 31).
  { unfold zlen. rewrite firstn_length_le by exact Hs. unfold k. lia. }
  split; [rewrite Hm; destruct Hu; lia|]. unfold record. rewrite Hm.
  replace (2 ^ 31 + (be_val hdr - 2 ^ 31)) with (be_val hdr) by lia.
  rewrite <- Eh, <- app_assoc, firstn_skipn. exact Er.
Qed.

Lemma c43_split b : exists ms rest, b = List.concat (map record ms) ++ rest /\
  Forall (fun m => zlen m < 2 ^ 31) ms /\ no_record rest.
Proof.
  assert (G : forall n b, (List.length b < n)%nat -> exists ms rest, b = List.concat (map record ms) ++ rest /\
    Forall (fun m => zlen m < 2 ^ 31) ms /\ no_record rest).
  { clear b. induction n as [|n IH]; intros b Hn; [lia|].
    destruct (record_dec b) as [(m & rest & Hm & ->)|Hr].
    - unfold record in Hn. rewrite !app_length, be4_len in Hn.
      destruct (IH rest ltac:(lia)) as (ms & rest' & -> & Hf & Hr).
      exists (m :: ms), rest'. cbn [map List.concat]. rewrite <- app_assoc. auto.
    - exists [], b. auto. }
  apply (G (S (List.length b))). lia.
Qed.
