(** The server always comes to a result: handling a request ends, without a panic, when the registered procedures return. *)
From Verif Require Import Bytes XdrLib Types Interp Spec Meta Total Runs Codec RpcTypes RpcSpec RpcWire RpcDec Io Client CallSpec Server ServSpec ServerP ServerQ ServerX.
Open Scope string_scope.
Open Scope Z_scope.
Open Scope list_scope.

Section Prompt.
Context {W : Type}.
(** The handler returns, whatever the argument bytes; the amount of fuel only decides whether it gets there. *)
Definition prompt (h : handler W) : Prop :=
  (forall n m s w, (n <= m)%nat -> le_out (h n s w) (h m s w)) /\ forall args w, exists r, HRuns h (MakeReader args) w r.
(** Every registration has a handler (not nil), and it returns. *)
Definition prompt_regs (l : list (registration W)) : Prop := forall r, In r l -> exists h, rg_handler r = Some h /\ prompt h.

Lemma stub_prompt E targ tres user : user_ok E targ tres user -> (forall x w, exists r, user x w = Ret r) -> prompt (stub E targ tres user).
Proof.
  intros Hu Hr. split.
  - intros n m s w L. unfold stub. apply le_out_bind.
    + destruct targ as [t|]; [|auto]. destruct (zero n E t) as [z|] eqn:Z; [|left; reflexivity]. rewrite (zero_mono _ _ _ _ _ L Z). apply le_out_bind; [apply xdr_le; exact L|]. intros []. auto.
    + intros [a x]. destruct targ; auto.
  - intros args w. destruct (arg_dec E targ tres user Hu args) as [[x Hx]|[H _]].
    + destruct (Hr x w) as [[w' y] Hy]. eexists. eapply stub_runs; eassumption.
    + destruct (H w) as [e He]. eexists. exact He.
Qed.

Lemma make_reply_le srv l n m w buf : reach srv l -> prompt_regs l -> (n <= m)%nat -> le_out (make_reply n srv w buf) (make_reply m srv w buf).
Proof.
  intros Hr Hp L. unfold make_reply. apply le_out_bind; [apply xdr_le; exact L|]. intros [rd req]. destruct (Error rd); auto. destruct (negb _); auto.
  apply le_out_bind.
  - unfold dispatch. destruct (negb _); auto. destruct (srv _) as [vm|] eqn:E1; auto. destruct (vm _) as [pm|] eqn:E2; auto. destruct (pm _) as [[h|]|] eqn:E3; auto.
    apply le_out_bind; [|intros [[? ?] []]; auto].
    assert (find3 srv (get_int ["Body"; "Cbody"; "Prog"] req) (get_int ["Body"; "Cbody"; "Vers"] req) (get_int ["Body"; "Cbody"; "Proc"] req) = Some (Some h)) as F by (unfold find3; rewrite E1, E2; exact E3).
    apply (c33_find _ _ _ _ _ _ Hr) in F. destruct F as (pre & post & -> & _). destruct (Hp (mkReg (get_int ["Body"; "Cbody"; "Prog"] req) (get_int ["Body"; "Cbody"; "Vers"] req) (get_int ["Body"; "Cbody"; "Proc"] req) (Some h))) as (h' & Q & [P _]); [apply in_or_app; right; left; reflexivity|].
    injection Q as <-. apply P. exact L.
  - intros [[w' res] rd']. apply le_out_bind; [apply xdr_le; exact L|]. intros [wr ?]. destruct (Error wr); auto. apply le_out_bind; [|intros wr'; destruct (Error wr'); auto].
    destruct rd' as [r|]; auto. apply le_out_bind; [apply xdr_le; exact L|]. intros []. auto.
Qed.

Lemma make_total srv l w buf : reach srv l -> regs_ok l -> prompt_regs l -> exists w' out, makes srv w buf w' out.
Proof.
  intros Hr Hg Hp. destruct (call_dec (W := W) buf) as [(xid & rv & prog & vers & proc & f1 & b1 & f2 & b2 & args & Hc)|(_ & N & e & H)]; [|exists w, (inl e), N; intros n Hn; apply H, Hn].
  assert (exists w' hdr res, decision srv w xid rv prog vers proc args w' hdr res) as (w' & hdr & res & Hd).
  { destruct (Z.eq_dec rv 2) as [->|Hv]; [|do 3 eexists; apply D_rpcvers; exact Hv].
    destruct (srv prog) as [vm|] eqn:E1; [|do 3 eexists; apply D_prog; [reflexivity|exact E1]].
    destruct (vm vers) as [pm|] eqn:E2; [|do 3 eexists; eapply D_vers; [reflexivity|exact E1|exact E2]].
    destruct (pm proc) as [h|] eqn:E3; [|do 3 eexists; eapply D_proc; [reflexivity|exact E1|exact E2|exact E3]].
    assert (find3 srv prog vers proc = Some h) as F by (unfold find3; rewrite E1, E2; exact E3).
    pose proof F as F'. apply (c33_find _ _ _ _ _ _ Hr) in F. destruct F as (pre & post & El & _).
    assert (In (mkReg prog vers proc h) l) as Il by (rewrite El; apply in_or_app; right; left; reflexivity).
    destruct (Hp _ Il) as (h' & Q & [_ P]). cbn [rg_handler] in Q. subst h. destruct (P args w) as ([[w' res] [e|]] & HR).
    - do 3 eexists. eapply D_garbage; [reflexivity|exact F'|eapply Hg; [exact Il|reflexivity]|exact HR].
    - do 3 eexists. eapply D_success; [reflexivity|exact F'|eapply Hg; [exact Il|reflexivity]|exact HR]. }
  destruct (decision_step _ _ _ _ _ _ _ _ _ _ _ _ _ _ _ _ Hc Hd) as (Hok & _).
  destruct (res_wire_dec res Hok) as [[b Hb]|Hb].
  - do 2 eexists. eapply decision_makes; eassumption.
  - destruct (decision_unencodable _ _ _ _ _ _ _ _ _ _ _ _ _ _ _ _ Hc Hd Hb) as [e He]. do 2 eexists. exact He.
Qed.
Lemma make_no_panic srv l w buf n : reach srv l -> regs_ok l -> prompt_regs l -> make_reply n srv w buf <> Panic.
Proof.
  intros Hr Hg Hp Q. destruct (make_total srv l w buf Hr Hg Hp) as (w' & out & N & H). destruct (make_reply_le srv l n (n + N) w buf Hr Hp ltac:(lia)) as [K|K]; [congruence|].
  rewrite Q, H in K by lia. discriminate.
Qed.
End Prompt.
