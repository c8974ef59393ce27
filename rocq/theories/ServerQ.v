(** Server lemmas in the shape used by P_Server.v. *)
From Verif Require Import Bytes XdrLib Types Interp Spec Prim Meta Enc Dec Total Canon Runs Codec Codec2 Inv
  RpcTypes RpcSpec RpcWire RpcDec Io Client CallSpec ClientP Server ServSpec ServerP.
Open Scope string_scope.
Open Scope Z_scope.
Open Scope list_scope.

Section P.
Context {W : Type}.
Implicit Types srv : server W.
Implicit Types l : list (registration W).

Lemma c33 srv l : reach srv l -> forall p v c,
  (srv p <> None <-> known_prog l p) /\
  ((exists vm, srv p = Some vm /\ vm v <> None) <-> known_vers l p v) /\
  (forall h, (exists vm pm, srv p = Some vm /\ vm v = Some pm /\ pm c = Some h) <-> last_for l p v c h) /\
  ((exists h, last_for l p v c h) <-> known_proc l p v c).
Proof.
  intros H p v c. split; [apply c33_prog; exact H|]. split.
  { rewrite <- (c33_vers _ _ _ _ H). split.
    - intros (vm & E & Hn). destruct (vm v) as [pm|] eqn:Ev; [|congruence]. exists vm, pm. auto.
    - intros (vm & pm & E & Ev). exists vm. split; [exact E|congruence]. }
  assert (HF : forall h, (exists vm pm, srv p = Some vm /\ vm v = Some pm /\ pm c = Some h) <-> find3 srv p v c = Some h).
  { intros h. unfold find3. split.
    - intros (vm & pm & -> & -> & E). exact E.
    - destruct (srv p) as [vm|]; [|discriminate]. destruct (vm v) as [pm|] eqn:Ev; [|discriminate].
      intros E. exists vm, pm. auto. }
  split. { intros h. rewrite HF. apply c33_find. exact H. }
  rewrite <- (c33_proc _ _ _ _ _ H). split.
  - intros [h Hh]. apply (c33_find _ _ _ _ _ _ H) in Hh. congruence.
  - intros Hn. destruct (find3 srv p v c) as [h|] eqn:E; [|congruence]. exists h.
    apply (c33_find _ _ _ _ _ _ H). exact E.
Qed.

Lemma decision_sends srv w buf xid rv prog vers proc f1 b1 f2 b2 args w' hdr res b :
  is_call DEC buf xid rv prog vers proc f1 b1 f2 b2 args ->
  decision srv w xid rv prog vers proc args w' hdr res -> res_wire res b ->
  sends srv w buf w' (hdr ++ b).
Proof. intros. apply makes_sends. eapply decision_makes; eassumption. Qed.

Lemma decision_sends0 srv w buf xid rv prog vers proc f1 b1 f2 b2 args w' hdr :
  is_call DEC buf xid rv prog vers proc f1 b1 f2 b2 args ->
  decision srv w xid rv prog vers proc args w' hdr None -> sends srv w buf w' hdr.
Proof.
  intros Hc Hd. rewrite <- (app_nil_r hdr). eapply decision_sends; [exact Hc|exact Hd|reflexivity].
Qed.

Lemma find_ok srv l p v c h : reach srv l -> regs_ok l -> last_for l p v c (Some h) ->
  find3 srv p v c = Some (Some h) /\ handler_ok h.
Proof.
  intros Hr Hg Hl. split; [apply (c33_find _ _ _ _ _ _ Hr); exact Hl|].
  destruct Hl as (pre & post & -> & _). eapply Hg; [apply in_or_app; right; left; reflexivity|reflexivity].
Qed.

Section Table.
Variables (srv : server W) (l : list (registration W)) (w : W).
Variables (buf : list byte) (xid rv prog vers proc f1 : Z) (b1 : list byte) (f2 : Z) (b2 args : list byte).
Hypothesis Hr : reach srv l.
Hypothesis Hg : regs_ok l.
Hypothesis Hc : is_call DEC buf xid rv prog vers proc f1 b1 f2 b2 args.

Lemma c34_rpcvers : rv <> 2 -> sends srv w buf w (reply_denied_mismatch xid 0 0).
Proof. intros. eapply decision_sends0; [exact Hc|]. apply D_rpcvers. assumption. Qed.

Lemma c34_prog : rv = 2 -> ~ known_prog l prog -> sends srv w buf w (reply_accepted xid null_auth 1).
Proof.
  intros Hv Hn. eapply decision_sends0; [exact Hc|]. apply D_prog; [exact Hv|].
  destruct (srv prog) eqn:E; [|reflexivity]. exfalso. apply Hn. apply (c33_prog _ _ _ Hr). congruence.
Qed.

Lemma c34_vers : rv = 2 -> known_prog l prog -> ~ known_vers l prog vers ->
  sends srv w buf w (reply_accepted xid null_auth 2 ++ be4 0 ++ be4 0).
Proof.
  intros Hv Hp Hn. eapply decision_sends0; [exact Hc|].
  apply (c33_prog _ _ _ Hr) in Hp. destruct (srv prog) as [vm|] eqn:E; [|congruence].
  eapply D_vers; [exact Hv|exact E|]. destruct (vm vers) as [pm|] eqn:Ev; [|reflexivity].
  exfalso. apply Hn. apply (c33_vers _ _ _ _ Hr). exists vm, pm. auto.
Qed.

Lemma c34_proc : rv = 2 -> known_vers l prog vers -> ~ known_proc l prog vers proc ->
  sends srv w buf w (reply_accepted xid null_auth 3).
Proof.
  intros Hv Hp Hn. eapply decision_sends0; [exact Hc|].
  apply (c33_vers _ _ _ _ Hr) in Hp. destruct Hp as (vm & pm & E & Ev).
  eapply D_proc; [exact Hv|exact E|exact Ev|]. destruct (pm proc) as [h|] eqn:Ep; [|reflexivity].
  exfalso. apply Hn. apply (c33_proc _ _ _ _ _ Hr). unfold find3. rewrite E, Ev. congruence.
Qed.

Lemma c34_garbage h w' res e b : rv = 2 -> last_for l prog vers proc (Some h) ->
  HRuns h (MakeReader args) w (w', res, Some e) -> res_wire res b ->
  sends srv w buf w' (reply_accepted xid null_auth 4 ++ b).
Proof.
  intros Hv Hl Hh Hb. destruct (find_ok _ _ _ _ _ _ Hr Hg Hl) as [Hf Ho].
  eapply decision_sends; [exact Hc| |exact Hb]. eapply D_garbage; eassumption.
Qed.

Lemma c34_success h w' res b : rv = 2 -> last_for l prog vers proc (Some h) ->
  HRuns h (MakeReader args) w (w', res, None) -> res_wire res b ->
  sends srv w buf w' (reply_accepted xid null_auth 0 ++ b).
Proof.
  intros Hv Hl Hh Hb. destruct (find_ok _ _ _ _ _ _ Hr Hg Hl) as [Hf Ho].
  eapply decision_sends; [exact Hc| |exact Hb]. eapply D_success; eassumption.
Qed.

Lemma c34_unencodable h w' res e : rv = 2 -> last_for l prog vers proc (Some h) ->
  HRuns h (MakeReader args) w (w', res, e) -> ~ res_bounded res -> silent srv w buf w'.
Proof.
  intros Hv Hl Hh Hb. destruct (find_ok _ _ _ _ _ _ Hr Hg Hl) as [Hf Ho]. destruct e as [e|].
  - destruct (decision_unencodable srv w buf xid rv prog vers proc f1 b1 f2 b2 args w'
      (reply_accepted xid null_auth 4) res Hc) as [e' H]; [eapply D_garbage; eassumption|exact Hb|].
    eapply makes_silent. exact H.
  - destruct (decision_unencodable srv w buf xid rv prog vers proc f1 b1 f2 b2 args w'
      (reply_accepted xid null_auth 0) res Hc) as [e' H]; [eapply D_success; eassumption|exact Hb|].
    eapply makes_silent. exact H.
Qed.

(** A nil handler: the process panics. *)
Lemma c34_nil S (C : conn S) s : rv = 2 -> last_for l prog vers proc None ->
  exists N, forall n, (N <= n)%nat -> handleReqErr n C srv s w buf = Panic.
Proof.
  intros Hv Hl. apply (c33_find _ _ _ _ _ _ Hr) in Hl.
  destruct (make_reply_call _ _ _ _ _ _ _ _ _ _ _ srv w Hc) as [N HN]. exists N. intros n Hn.
  unfold handleReqErr. rewrite HN by exact Hn. subst rv. cbn [Z.eqb Pos.eqb negb].
  unfold find3 in Hl. destruct (srv prog) as [vm|]; [|discriminate].
  destruct (vm vers) as [pm|]; [|discriminate]. rewrite Hl. reflexivity.
Qed.
End Table.

Lemma c34 srv l w buf xid rv prog vers proc f1 b1 f2 b2 args : reach srv l -> regs_ok l ->
  is_call DEC buf xid rv prog vers proc f1 b1 f2 b2 args ->
  (rv <> 2 -> sends srv w buf w (reply_denied_mismatch xid 0 0)) /\
  (rv = 2 -> ~ known_prog l prog -> sends srv w buf w (reply_accepted xid null_auth 1)) /\
  (rv = 2 -> known_prog l prog -> ~ known_vers l prog vers ->
     sends srv w buf w (reply_accepted xid null_auth 2 ++ be4 0 ++ be4 0)) /\
  (rv = 2 -> known_vers l prog vers -> ~ known_proc l prog vers proc ->
     sends srv w buf w (reply_accepted xid null_auth 3)) /\
  (forall h w' res e b, rv = 2 -> last_for l prog vers proc (Some h) ->
     HRuns h (MakeReader args) w (w', res, Some e) -> res_wire res b ->
     sends srv w buf w' (reply_accepted xid null_auth 4 ++ b)) /\
  (forall h w' res b, rv = 2 -> last_for l prog vers proc (Some h) ->
     HRuns h (MakeReader args) w (w', res, None) -> res_wire res b ->
     sends srv w buf w' (reply_accepted xid null_auth 0 ++ b)).
Proof.
  intros Hr Hg Hc.
  split; [eapply c34_rpcvers; exact Hc|]. split; [eapply c34_prog; eassumption|].
  split; [eapply c34_vers; eassumption|]. split; [eapply c34_proc; eassumption|].
  split; [intros; eapply c34_garbage; eassumption|intros; eapply c34_success; eassumption].
Qed.

(** *** C35 *)
Lemma Handles_makes {S} (C : conn S) srv s w buf s' w' e : Handles C srv s w buf s' w' e ->
  exists n out, make_reply n srv w buf = Ret (w', out) /\
    match out with
    | inl x => s' = s /\ e = Some x
    | inr b => s' = fst (c_write C s b) /\ e = option_map SIo (snd (c_write C s b))
    end.
Proof.
  intros [n H]. unfold handleReqErr in H. apply obind_ret in H. destruct H as ([w1 [x|b]] & H1 & H).
  - injection H as <- <- <-. exists n, (inl x). auto.
  - destruct (c_write C s b) as [s1 e1] eqn:E. injection H as <- <- <-. exists n, (inr b). rewrite E. auto.
Qed.

Lemma hdr_xid srv w xid rv prog vers proc args w' hdr res :
  decision srv w xid rv prog vers proc args w' hdr res -> exists t, hdr = be4 xid ++ be4 1 ++ t.
Proof.
  intros []; unfold reply_denied_mismatch, reply_accepted; rewrite <- ?app_assoc; eauto.
Qed.

Lemma c35_one srv l S (C : conn S) s w buf xid rv prog vers proc f1 b1 f2 b2 args s' log w' e :
  reach srv l -> regs_ok l -> is_call DEC buf xid rv prog vers proc f1 b1 f2 b2 args ->
  Handles (logged C) srv (s, []) w buf (s', log) w' e ->
  (exists rep t, rep = be4 xid ++ be4 1 ++ t /\ log = [mark (zlen rep) ++ rep]) \/
  (log = [] /\ e <> None /\ rv = 2 /\ exists h res e', last_for l prog vers proc (Some h) /\
     HRuns h (MakeReader args) w (w', res, e') /\ ~ res_bounded res).
Proof.
  intros Hr Hg Hc H. destruct (Handles_makes _ _ _ _ _ _ _ _ H) as (n & out & Hm & Ho).
  destruct (decision_complete _ _ _ _ _ _ _ _ _ _ _ _ _ _ _ _ _ Hr Hg Hc Hm) as (hdr & res & Hd).
  { intros N m r HN HH. eapply make_reply_mono; eassumption. }
  destruct (decision_step _ _ _ _ _ _ _ _ _ _ _ _ _ _ _ _ Hc Hd) as (Hok & _).
  destruct (res_wire_dec _ Hok) as [[b Hb]|Hb].
  - left. destruct (decision_makes _ _ _ _ _ _ _ _ _ _ _ _ _ _ _ _ _ Hc Hd Hb) as [N HN].
    pose proof (make_reply_mono _ _ _ _ n (n + N) _ Hr Hg ltac:(lia) Hm) as Hm'.
    rewrite HN in Hm' by lia. injection Hm' as <-. destruct Ho as [Ho _].
    destruct (hdr_xid _ _ _ _ _ _ _ _ _ _ _ Hd) as [t ->]. exists ((be4 xid ++ be4 1 ++ t) ++ b), (t ++ b).
    split; [rewrite <- !app_assoc; reflexivity|]. cbn in Ho.
    destruct (c_write C s _) as [s1 e1]. cbn in Ho. congruence.
  - right. destruct (decision_unencodable _ _ _ _ _ _ _ _ _ _ _ _ _ _ _ _ Hc Hd Hb) as [x [N HN]].
    pose proof (make_reply_mono _ _ _ _ n (n + N) _ Hr Hg ltac:(lia) Hm) as Hm'.
    rewrite HN in Hm' by lia. injection Hm' as <-. destruct Ho as [[= -> ->] ->].
    split; [reflexivity|]. split; [congruence|].
    destruct Hd as [| | | |h w' res e' Hv Hf _ Hh|h w' res Hv Hf _ Hh]; try (exfalso; apply Hb; exact I).
    + split; [exact Hv|]. exists h, res, (Some e'). split; [apply (c33_find _ _ _ _ _ _ Hr); exact Hf|]. auto.
    + split; [exact Hv|]. exists h, res, None. split; [apply (c33_find _ _ _ _ _ _ Hr); exact Hf|]. auto.
Qed.

Lemma c35_none srv w buf : no_call buf -> silent srv w buf w.
Proof.
  intros Hn. destruct (call_dec (W := W) buf) as [(xid & rv & prog & vers & proc & f1 & b1 & f2 & b2 & args & Hc)|(_ & N & e & H)].
  { exfalso. eapply Hn. exact Hc. }
  apply (makes_silent _ _ _ _ e). exists N. intros n Hnn. apply H. exact Hnn.
Qed.

(** *** C37 *)
Lemma c37 srv l S (C : conn S) s w buf s' log w' e : reach srv l -> regs_ok l ->
  Handles (logged C) srv (s, []) w buf (s', log) w' e ->
  log = [] \/
  exists xid rep, u32 xid /\ log = [be4 (2 ^ 31 + zlen rep mod 2 ^ 31) ++ rep] /\
    (zlen rep < 2 ^ 31 -> log = [record rep]) /\
    (rep = reply_denied_mismatch xid 0 0 \/
     (exists stat, (stat = 1 \/ stat = 3) /\ rep = reply_accepted xid null_auth stat) \/
     rep = reply_accepted xid null_auth 2 ++ be4 0 ++ be4 0 \/
     exists stat h args res e' b, (stat = 0 /\ e' = None \/ stat = 4 /\ e' <> None) /\
       HRuns h (MakeReader args) w (w', res, e') /\ res_wire res b /\
       rep = reply_accepted xid null_auth stat ++ b).
Proof.
  intros Hr Hg H.
  destruct (call_dec (W := W) buf) as [(xid & rv & prog & vers & proc & f1 & b1 & f2 & b2 & args & Hc)|(Hn & _)].
  2:{ left. destruct (c35_none srv w buf Hn _ (logged C) (s, [])) as [e' K].
      destruct (Handles_det _ _ _ _ _ _ _ _ _ _ _ _ Hr Hg H K) as ([= -> ->] & _). reflexivity. }
  destruct (Handles_makes _ _ _ _ _ _ _ _ H) as (n & out & Hm & Ho).
  destruct (decision_complete _ _ _ _ _ _ _ _ _ _ _ _ _ _ _ _ _ Hr Hg Hc Hm) as (hdr & res & Hd).
  { intros N m r HN HH. eapply make_reply_mono; eassumption. }
  destruct (decision_step _ _ _ _ _ _ _ _ _ _ _ _ _ _ _ _ Hc Hd) as (Hok & _).
  destruct (res_wire_dec _ Hok) as [[b Hb]|Hb].
  - right. destruct (decision_makes _ _ _ _ _ _ _ _ _ _ _ _ _ _ _ _ _ Hc Hd Hb) as [N HN].
    pose proof (make_reply_mono _ _ _ _ n (n + N) _ Hr Hg ltac:(lia) Hm) as Hm'.
    rewrite HN in Hm' by lia. injection Hm' as <-. destruct Ho as [Ho _].
    exists xid, (hdr ++ b). split; [exact (proj1 Hc)|].
    assert (El : log = [mark (zlen (hdr ++ b)) ++ hdr ++ b]).
    { cbn in Ho. destruct (c_write C s _) as [s1 e1]. cbn in Ho. congruence. }
    split; [exact El|]. split; [intros Hl; rewrite El, mark_record by exact Hl; reflexivity|].
    destruct Hd as [Hv|Hv Hp|vm Hv Hp Hq|vm pm Hv Hp Hq Hs|h w' res e' Hv Hf _ Hh|h w' res Hv Hf _ Hh];
      try (cbn in Hb; subst b; rewrite app_nil_r).
    + left. reflexivity.
    + right. left. exists 1. auto.
    + right. right. left. reflexivity.
    + right. left. exists 3. auto.
    + right. right. right. exists 4, h, args, res, (Some e'), b. split; [right; split; congruence|]. auto.
    + right. right. right. exists 0, h, args, res, None, b. split; [left; auto|]. auto.
  - left. destruct (decision_unencodable _ _ _ _ _ _ _ _ _ _ _ _ _ _ _ _ Hc Hd Hb) as [x [N HN]].
    pose proof (make_reply_mono _ _ _ _ n (n + N) _ Hr Hg ltac:(lia) Hm) as Hm'.
    rewrite HN in Hm' by lia. injection Hm' as <-. destruct Ho as [[= -> ->] ->]. reflexivity.
Qed.

(** *** C44 *)
Lemma c44 srv l w buf buf' xid rv prog vers proc f1 b1 f2 b2 f1' b1' f2' b2' args : reach srv l -> regs_ok l ->
  is_call DEC buf xid rv prog vers proc f1 b1 f2 b2 args ->
  is_call DEC buf' xid rv prog vers proc f1' b1' f2' b2' args ->
  (forall S (C : conn S) s s' w' e, Handles C srv s w buf s' w' e -> Handles C srv s w buf' s' w' e).
Proof.
  intros Hr Hg Hc Hc' S C s s' w' e [n H]. unfold handleReqErr in H.
  destruct (make_reply_call _ _ _ _ _ _ _ _ _ _ _ srv w Hc) as [N HN].
  destruct (make_reply_call _ _ _ _ _ _ _ _ _ _ _ srv w Hc') as [N' HN'].
  exists (n + N + N')%nat. unfold handleReqErr. rewrite HN' by lia. rewrite <- HN by lia.
  apply obind_ret in H. destruct H as (a & Ha & H).
  rewrite (make_reply_mono _ _ _ _ n (n + N + N') _ Hr Hg ltac:(lia) Ha). exact H.
Qed.

(** *** Stubs *)
Section Stub.
Variables (E : env) (targ tres : option cty) (user : option val -> W -> outcome (W * option val)).
Hypothesis Hin : forall t, targ = Some t -> exists D, good D E t.
Hypothesis Hout : forall t, tres = Some t -> exists D, good D E t.
(** Go's typing of the user's method. *)
Hypothesis Huser : forall x w w' y, user x w = Ret (w', y) ->
  match tres with Some t => exists v, y = Some v /\ has_ty E t v | None => y = None end.

Local Notation stub_res := (stub_res E tres).

Lemma void_ok : xv_ok xv_void.
Proof.
  split; [|constructor; constructor]. exists 1%nat. split; [intros x t H; discriminate|].
  split; [constructor; [constructor|intros f t []]|cbn; congruence].
Qed.

Lemma zero_mono_eq n m t z : (n <= m)%nat -> zero n E t = Some z -> zero m E t = Some z.
Proof. intros Hm H. eapply zero_mono; eassumption. Qed.

Lemma stub_mono n m s w r : (n <= m)%nat ->
  stub E targ tres user n s w = Ret r -> stub E targ tres user m s w = Ret r.
Proof.
  intros Hm H. unfold stub in *. apply obind_ret in H. destruct H as ([a x] & H1 & H).
  destruct targ as [t|].
  - destruct (zero n E t) as [z|] eqn:Ez; [|discriminate]. rewrite (zero_mono_eq _ _ _ _ Hm Ez).
    apply obind_ret in H1. destruct H1 as ([s1 x1] & H1 & H2).
    rewrite (xdr_mono n m _ _ _ _ _ Hm H1). cbn [obind]. injection H2 as <- <-. exact H.
  - injection H1 as <- <-. exact H.
Qed.

Lemma stub_ok_res x w w' y : user x w = Ret (w', y) -> xv_ok (stub_res y).
Proof.
  intros H. apply Huser in H. unfold stub_res. destruct tres as [t|].
  - destruct H as (v & -> & Hv). split; [|exact Hv]. apply Hout. reflexivity.
  - apply void_ok.
Qed.

Lemma stub_ret n s w w' o e : stub E targ tres user n s w = Ret (w', o, e) ->
  (exists x y, user x w = Ret (w', y) /\ o = Some (stub_res y) /\ e = None) \/ (w' = w /\ o = None /\ e <> None /\ targ <> None).
Proof.
  unfold stub, stub_res. intros H. apply obind_ret in H. destruct H as ([a x] & H1 & H).
  assert (HU : ('r <- user x w ;; (let '(w', y) := r in
      match tres, y with
      | None, _ => Ret (w', Some xv_void, None)
      | Some t, Some y => Ret (w', Some (mkXv E t y), None)
      | Some _, None => Panic
      end)) = Ret (w', o, e) -> exists x y, user x w = Ret (w', y) /\ o = Some (stub_res y) /\ e = None).
  { intros K. apply obind_ret in K. destruct K as ([w1 y] & Hu & K). unfold stub_res. exists x, y. pose proof (Huser _ _ _ _ Hu) as Ht.
    destruct tres as [t|].
    - destruct Ht as (v & -> & _). injection K as <- <- <-. auto.
    - injection K as <- <- <-. auto. }
  destruct targ as [t|].
  - destruct (Error a); [|left; apply HU; exact H]. injection H as <- <- <-. right. repeat split; congruence.
  - left. apply HU. exact H.
Qed.

Lemma stub_ok : handler_ok (stub E targ tres user).
Proof.
  split; [intros; eapply stub_mono; eassumption|].
  intros s w w' o e [n H]. apply stub_ret in H. destruct H as [(x & y & Hu & -> & _)|(_ & -> & _)]; [|exact I].
  eapply stub_ok_res. exact Hu.
Qed.

(** Arguments decode: the procedure runs once, on the decoded value. *)
Lemma c36_run t args z rest x w w' y : targ = Some t -> fresh E t z ->
  DecodeRest E t args z rest x -> user (Some x) w = Ret (w', y) ->
  HRuns (stub E targ tres user) (MakeReader args) w (w', Some (stub_res y), None).
Proof.
  intros -> [k Hz] [n H] Hu. exists (k + n)%nat. unfold stub.
  rewrite (zero_mono_eq _ _ _ _ (Nat.le_add_r k n) Hz).
  rewrite (xdr_mono n (k + n) _ _ _ _ _ ltac:(lia) H). cbn [obind]. unfold MakeReader at 1. cbn [Error x_err].
  rewrite Hu. cbn [obind]. pose proof (Huser _ _ _ _ Hu) as Ht. unfold stub_res.
  destruct tres as [t'|]; [destruct Ht as (v & -> & _); reflexivity|subst; reflexivity].
Qed.

(** They do not: the procedure does not run. *)
Lemma c36_bad t args z e x w : targ = Some t -> fresh E t z -> Decode E t args z (Some e) x ->
  HRuns (stub E targ tres user) (MakeReader args) w (w, None, Some e).
Proof.
  intros -> [k Hz] [n H] . unfold DecodeBuf in H. apply obind_ret in H. destruct H as ([s v] & H1 & H2).
  injection H2 as He <-. exists (k + n)%nat. unfold stub.
  rewrite (zero_mono_eq _ _ _ _ (Nat.le_add_r k n) Hz).
  rewrite (xdr_mono n (k + n) _ _ _ _ _ ltac:(lia) H1). cbn [obind]. rewrite He. reflexivity.
Qed.

(** Without arguments it always runs. *)
Lemma c36_void args w w' y : targ = None -> user None w = Ret (w', y) ->
  HRuns (stub E targ tres user) (MakeReader args) w (w', Some (stub_res y), None).
Proof.
  intros -> Hu. exists 0%nat. unfold stub. cbn [obind]. rewrite Hu. cbn [obind].
  pose proof (Huser _ _ _ _ Hu) as Ht. unfold stub_res.
  destruct tres as [t'|]; [destruct Ht as (v & -> & _); reflexivity|subst; reflexivity].
Qed.

(** The procedure's failure (panic, endless loop) is the stub's. *)
Lemma c36_decode_dec t args z : targ = Some t -> fresh E t z ->
  (exists rest x, DecodeRest E t args z rest x) \/ (exists e x, Decode E t args z (Some e) x).
Proof.
  intros Ht Hz. destruct (Hin t Ht) as (D & HwE & Hwt & Hz0).
  destruct (dec_outcome D E t HwE Hwt Hz0 args z) as [(w & rest & x & _ & H & _)|(e & r & x & H)].
  - apply (fresh_ty E t). exact Hz.
  - eapply (fresh_stale E t). exact Hz.
  - left. exists rest, x. exact H.
  - right. exists e, x. apply Decode_runs. eexists. split; [exact H|reflexivity].
Qed.
End Stub.
End P.
