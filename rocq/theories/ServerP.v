(** Proofs about the RPC server. *)
From Verif Require Import Bytes XdrLib Types Interp Spec Prim Meta Enc Dec Total Canon Runs Codec Codec2 Inv
  RpcTypes RpcSpec RpcWire RpcDec Io Client CallSpec ClientP Server ServSpec.
Open Scope string_scope.
Open Scope Z_scope.
Open Scope list_scope.

Section P.
Context {W : Type}.
Implicit Types srv : server W.
Implicit Types l : list (registration W).

(** ** C33: registration *)
Lemma reg_many_app srv a b : RegisterMany srv (a ++ b) = RegisterMany (RegisterMany srv a) b.
Proof. unfold RegisterMany. apply fold_left_app. Qed.

Lemma reach_eq srv l : reach srv l -> srv = RegisterMany MakeServer l.
Proof.
  induction 1 as [|s l r _ IH|s l rs _ IH]; [reflexivity| |]; rewrite reg_many_app, <- IH; reflexivity.
Qed.

Definition find3 srv p v c : option (option (handler W)) :=
  match srv p with
  | Some vm => match vm v with Some pm => pm c | None => None end
  | None => None
  end.
Definition has2 srv p v : Prop := exists vm pm, srv p = Some vm /\ vm v = Some pm.

Lemma register_find srv p v c h p' v' c' :
  find3 (Register srv p v c h) p' v' c' =
  if (p' =? p) && (v' =? v) && (c' =? c) then Some h else find3 srv p' v' c'.
Proof.
  unfold find3, Register, upd. destruct (Z.eqb_spec p' p) as [->|]; cbn [andb]; [|reflexivity].
  destruct (Z.eqb_spec v' v) as [->|]; cbn [andb].
  - destruct (Z.eqb_spec c' c) as [->|]; [reflexivity|].
    destruct (srv p) as [vm|]; [|reflexivity]. destruct (vm v); reflexivity.
  - destruct (srv p) as [vm|]; reflexivity.
Qed.
Lemma register_prog srv p v c h p' :
  Register srv p v c h p' <> None <-> p' = p \/ srv p' <> None.
Proof.
  unfold Register, upd. destruct (Z.eqb_spec p' p) as [->|Hn].
  - split; [auto|congruence].
  - split; [auto|]. intros [|]; [contradiction|assumption].
Qed.
Lemma register_vers srv p v c h p' v' :
  has2 (Register srv p v c h) p' v' <-> (p' = p /\ v' = v) \/ has2 srv p' v'.
Proof.
  unfold has2, Register, upd. destruct (Z.eqb_spec p' p) as [->|Hn].
  - split.
    + intros (vm & pm & [= <-] & H). destruct (Z.eqb_spec v' v) as [->|]; [auto|].
      destruct (srv p) as [vm|]; [|discriminate]. right. eauto.
    + intros [[_ ->]|(vm & pm & H1 & H2)].
      * do 2 eexists. split; [reflexivity|]. cbv beta. rewrite Z.eqb_refl. reflexivity.
      * rewrite H1. destruct (Z.eqb_spec v' v) as [->|Hv].
        -- do 2 eexists. split; [reflexivity|]. cbv beta. rewrite Z.eqb_refl. reflexivity.
        -- do 2 eexists. split; [reflexivity|]. cbv beta.
           destruct (Z.eqb_spec v' v); [contradiction|exact H2].
  - split; [intros; auto|]. intros [[? _]|]; [contradiction|assumption].
Qed.

Lemma last_for_snoc l r p v c h : last_for (l ++ [r]) p v c h <->
  (for_proc r p v c /\ rg_handler r = h) \/ (~ for_proc r p v c /\ last_for l p v c h).
Proof.
  split.
  - intros (pre & post & E & Hp). destruct post as [|x post _] using rev_ind.
    + apply app_inj_tail in E. destruct E as [-> ->]. left. repeat split.
    + rewrite app_comm_cons, app_assoc in E. apply app_inj_tail in E. destruct E as [-> ->].
      right. split; [apply Hp; apply in_or_app; right; left; reflexivity|].
      exists pre, post. split; [reflexivity|]. intros y Hy. apply Hp. apply in_or_app. auto.
  - intros [[(H1 & H2 & H3) H4]|[Hn (pre & post & -> & Hp)]].
    + exists l, []. destruct r. cbn in *. subst. split; [reflexivity|]. intros ? [].
    + exists pre, (post ++ [r]). rewrite <- app_assoc. split; [reflexivity|].
      intros y Hy. apply in_app_or in Hy. destruct Hy as [Hy|[<-|[]]]; auto.
Qed.

Lemma for_proc_dec (r : registration W) p v c :
  (p =? rg_prog r) && (v =? rg_vers r) && (c =? rg_proc r) = true <-> for_proc r p v c.
Proof.
  unfold for_proc. rewrite !andb_true_iff, !Z.eqb_eq. intuition congruence.
Qed.

Lemma c33_find srv l p v c h : reach srv l -> (find3 srv p v c = Some h <-> last_for l p v c h).
Proof.
  intros H. rewrite (reach_eq _ _ H). clear H srv.
  induction l as [|r l IH] using rev_ind.
  - split; [discriminate|]. intros (pre & post & E & _). destruct pre; discriminate.
  - rewrite reg_many_app. cbn [RegisterMany fold_left]. rewrite register_find, last_for_snoc, <- IH.
    destruct ((p =? rg_prog r) && (v =? rg_vers r) && (c =? rg_proc r)) eqn:E.
    + apply for_proc_dec in E. intuition congruence.
    + assert (~ for_proc r p v c) by (rewrite <- for_proc_dec; congruence). intuition congruence.
Qed.

Lemma c33_prog srv l p : reach srv l -> (srv p <> None <-> known_prog l p).
Proof.
  intros H. rewrite (reach_eq _ _ H). clear H srv. unfold known_prog.
  induction l as [|r l IH] using rev_ind.
  - split; [intros H; exfalso; apply H; reflexivity|]. intros (? & [] & _).
  - rewrite reg_many_app. cbn [RegisterMany fold_left]. rewrite register_prog, IH. split.
    + intros [->|(x & Hx & <-)].
      * exists r. split; [apply in_or_app; right; left|]; reflexivity.
      * exists x. split; [apply in_or_app; auto|reflexivity].
    + intros (x & Hx & <-). apply in_app_or in Hx. destruct Hx as [Hx|[<-|[]]]; eauto.
Qed.

Lemma c33_vers srv l p v : reach srv l -> (has2 srv p v <-> known_vers l p v).
Proof.
  intros H. rewrite (reach_eq _ _ H). clear H srv. unfold known_vers.
  induction l as [|r l IH] using rev_ind.
  - split; [intros (? & ? & H & _); discriminate|]. intros (? & [] & _).
  - rewrite reg_many_app. cbn [RegisterMany fold_left]. rewrite register_vers, IH. split.
    + intros [[-> ->]|(x & Hx & <- & <-)].
      * exists r. split; [apply in_or_app; right; left|]; auto.
      * exists x. split; [apply in_or_app; auto|auto].
    + intros (x & Hx & <- & <-). apply in_app_or in Hx. destruct Hx as [Hx|[<-|[]]]; eauto.
Qed.

Lemma c33_proc srv l p v c : reach srv l -> (find3 srv p v c <> None <-> known_proc l p v c).
Proof.
  intros H. rewrite (reach_eq _ _ H). clear H srv. unfold known_proc.
  induction l as [|r l IH] using rev_ind.
  - split; [intros H; exfalso; apply H; reflexivity|]. intros (? & [] & _).
  - rewrite reg_many_app. cbn [RegisterMany fold_left]. rewrite register_find.
    destruct ((p =? rg_prog r) && (v =? rg_vers r) && (c =? rg_proc r)) eqn:E.
    + apply for_proc_dec in E. split; [|congruence]. intros _. exists r.
      split; [apply in_or_app; right; left; reflexivity|exact E].
    + rewrite IH. split.
      * intros (x & Hx & H). exists x. split; [apply in_or_app; auto|exact H].
      * intros (x & Hx & H). apply in_app_or in Hx. destruct Hx as [Hx|[<-|[]]]; [eauto|].
        apply for_proc_dec in H. congruence.
Qed.

(** ** Dispatch *)
Definition reply_val (xid stat : Z) : val :=
  msg_val xid 1 zero_cbody (rbody_val 0 (areply_val zero_auth stat zero_mismatch) zero_rreply).
Definition denied_val (xid : Z) : val :=
  msg_val xid 1 zero_cbody (rbody_val 1 zero_areply zero_rreply).

Lemma dispatch_eq n srv w rd xid rv prog vers proc cr vf r :
  dispatch n srv w rd (msg_val xid 0 (cbody_val rv prog vers proc cr vf) r) =
  if negb (rv =? 2) then Ret (w, denied_val xid, None)
  else match srv prog with
       | None => Ret (w, reply_val xid 1, None)
       | Some vm =>
           match vm vers with
           | None => Ret (w, reply_val xid 2, None)
           | Some pm =>
               match pm proc with
               | None => Ret (w, reply_val xid 3, None)
               | Some None => Panic
               | Some (Some h) =>
                   'r <- h n rd w ;;
                   match r with
                   | (w', res, Some _) => Ret (w', reply_val xid 4, res)
                   | (w', res, None) => Ret (w', reply_val xid 0, res)
                   end
               end
           end
       end.
Proof. reflexivity. Qed.

(** *** Reply headers *)
Lemma wire_null_auth : Wire ENC rpc_env (CIdent "Opaque_auth") zero_auth null_auth.
Proof.
  change zero_auth with (auth_val 0 None). apply wire_auth.
  change null_auth with (be4 0 ++ be4 (zlen (@nil byte)) ++ [] ++ []).
  constructor; [apply u32_0|vm_compute; congruence|apply is_pad_nil].
Qed.

Lemma wire_reply xid stat : u32 xid -> u32 stat ->
  Wire ENC rpc_env msg_t (reply_val xid stat)
    (reply_accepted xid null_auth stat ++ (if stat =? 2 then be4 0 ++ be4 0 else [])).
Proof.
  intros Hx Hs. apply wire_msg_reply. split; [exact Hx|]. eexists. split.
  - apply wire_rbody_acc. eexists. split; [|reflexivity].
    apply (wire_areply _ _ _ 0 0); [apply u32_0|apply u32_0|]. split; [exact Hs|].
    exists null_auth. split; [apply wire_null_auth|reflexivity].
  - unfold reply_accepted, acc_tail. rewrite <- !app_assoc. reflexivity.
Qed.

Lemma wire_denied xid : u32 xid ->
  Wire ENC rpc_env msg_t (denied_val xid) (reply_denied_mismatch xid 0 0).
Proof.
  intros Hx. apply wire_msg_reply. split; [exact Hx|]. eexists. split.
  - apply wire_rbody_rej. eexists. split; [|reflexivity].
    apply (wire_rreply_mm _ 0 0 0); [apply u32_0|apply u32_0|]. reflexivity.
  - reflexivity.
Qed.

Lemma reply_ty xid stat : u32 xid -> u32 stat -> has_ty rpc_env msg_t (reply_val xid stat).
Proof.
  intros. apply msg_ty; [assumption|apply u32_1|apply zero_cbody_ty|].
  apply rbody_ty; [apply u32_0|apply areply_ty; auto using u32_0|apply rreply_ty; apply u32_0].
Qed.
Lemma denied_ty xid : u32 xid -> has_ty rpc_env msg_t (denied_val xid).
Proof.
  intros. apply msg_ty; [assumption|apply u32_1|apply zero_cbody_ty|].
  apply rbody_ty; [apply u32_1|apply areply_ty; auto using u32_0|apply rreply_ty; apply u32_0].
Qed.

(** *** The second half: server.go:158-178 *)
Definition finish (n : nat) (w' : W) (res : val) (resdata : option xdrable) : outcome (W * (serr + list byte)) :=
  '(wr, _) <- xdr n rpc_env msg_t (MakeWriter (zeros 4)) res ;;
  match Error wr with
  | Some e => Ret (w', inl (SXdr e))
  | None =>
      'wr <- match resdata with
             | None => Ret wr
             | Some r => '(wr, _) <- xdr n (xv_env r) (xv_ty r) wr (xv_val r) ;; Ret wr
             end ;;
      match Error wr with
      | Some e => Ret (w', inl (SXdr e))
      | None =>
          let wbuf := WriteBuf wr in
          Ret (w', inr (put_u32 (rec_mark (zlen wbuf - 4)) ++ skipn 4 wbuf))
      end
  end.

Lemma finish_ok w' res hdr o b : has_ty rpc_env msg_t res -> Wire ENC rpc_env msg_t res hdr ->
  res_ok o -> res_wire o b ->
  exists N, forall n, (N <= n)%nat ->
    finish n w' res o = Ret (w', inr (mark (zlen (hdr ++ b)) ++ hdr ++ b)).
Proof.
  intros Ht Hw Ho Hb.
  destruct (enc_wire rpc_D rpc_env msg_t rpc_wf msg_wf ENC (zeros 4) res hdr strict_ENC Hw Ht) as [n1 K1].
  assert (HK : exists n2, forall n, (n2 <= n)%nat ->
    match o with
     | None => Ret (WR (zeros 4 ++ hdr))
     | Some r => '(wr, _) <- xdr n (xv_env r) (xv_ty r) (WR (zeros 4 ++ hdr)) (xv_val r) ;; Ret wr
     end = Ret (WR ((zeros 4 ++ hdr) ++ b))).
  { destruct o as [r|].
    - destruct Ho as [(D & HwE & Hwt & Hz) Htr]. cbn in Hb.
      destruct (enc_wire D _ _ HwE Hwt ENC (zeros 4 ++ hdr) _ b strict_ENC Hb Htr) as [n2 K2].
      exists n2. intros n Hn. rewrite (xdr_mono n2 n _ _ _ _ _ Hn K2). reflexivity.
    - cbn in Hb. subst b. exists 0%nat. intros. rewrite app_nil_r. reflexivity. }
  destruct HK as [n2 K2]. exists (n1 + n2)%nat. intros n Hn. unfold finish.
  change (MakeWriter (zeros 4)) with (WR (zeros 4)).
  rewrite (xdr_mono n1 n _ _ _ _ _ ltac:(lia) K1). cbn [obind Error x_err].
  rewrite K2 by lia. cbn [obind Error x_err WriteBuf x_buf].
  rewrite <- app_assoc. rewrite mark_eq.
  replace (zlen (zeros 4 ++ hdr ++ b) - 4) with (zlen (hdr ++ b)) by (rewrite (zlen_app (zeros 4)); change (zlen (zeros 4)) with 4; lia).
  reflexivity.
Qed.

Lemma finish_err w' res hdr r : has_ty rpc_env msg_t res -> Wire ENC rpc_env msg_t res hdr ->
  xv_ok r -> ~ bounded ENC (xv_env r) (xv_ty r) (xv_val r) ->
  exists N e, forall n, (N <= n)%nat -> finish n w' res (Some r) = Ret (w', inl (SXdr e)).
Proof.
  intros Ht Hw [(D & HwE & Hwt & Hz) Htr] Hb.
  destruct (enc_wire rpc_D rpc_env msg_t rpc_wf msg_wf ENC (zeros 4) res hdr strict_ENC Hw Ht) as [n1 K1].
  destruct (enc_outcome D _ _ HwE Hwt (zeros 4 ++ hdr) (xv_val r) Htr) as (w & [[_ Hx]|(e & [n2 K2] & _)]).
  { exfalso. apply Hb. apply (proj1 (proj1 (proj2 (c03 D _ _ HwE Hwt _ Htr)) w None
          (proj2 (Encode_ok_wire D _ _ HwE Hwt _ w Htr) Hx)) eq_refl). }
  exists (n1 + n2)%nat, e. intros n Hn. unfold finish.
  change (MakeWriter (zeros 4)) with (WR (zeros 4)).
  rewrite (xdr_mono n1 n _ _ _ _ _ ltac:(lia) K1). cbn [obind Error x_err].
  rewrite (xdr_mono n2 n _ _ _ _ _ ltac:(lia) K2). reflexivity.
Qed.

(** ** make_reply *)
Lemma make_reply_call buf xid rv prog vers proc f1 b1 f2 b2 args srv w :
  is_call DEC buf xid rv prog vers proc f1 b1 f2 b2 args ->
  exists N, forall n, (N <= n)%nat -> make_reply n srv w buf =
    ('d <- (if negb (rv =? 2) then Ret (w, denied_val xid, None)
            else match srv prog with
             | None => Ret (w, reply_val xid 1, None)
             | Some vm =>
                 match vm vers with
                 | None => Ret (w, reply_val xid 2, None)
                 | Some pm =>
                     match pm proc with
                     | None => Ret (w, reply_val xid 3, None)
                     | Some None => Panic
                     | Some (Some h) =>
                         'r <- h n (MakeReader args) w ;;
                         match r with
                         | (w', res, Some _) => Ret (w', reply_val xid 4, res)
                         | (w', res, None) => Ret (w', reply_val xid 0, res)
                         end
                     end
                 end
             end) ;;
     match d with (w', res, resdata) => finish n w' res resdata end).
Proof.
  intros Hc. destruct (decode_call _ _ _ _ _ _ _ _ _ _ _ Hc) as [N K]. exists N. intros n Hn.
  unfold make_reply. change (MakeReader buf) with (RD buf).
  rewrite (xdr_mono N n _ _ _ _ _ Hn K). cbn [obind Error x_err].
  set (m := msg_val xid 0 _ _). change (get_int ["Body"; "Mtype"] m =? CALL) with true. cbn [negb].
  unfold m. rewrite dispatch_eq. reflexivity.
Qed.

Definition no_call (buf : list byte) : Prop :=
  forall xid rv prog vers proc f1 b1 f2 b2 args, ~ is_call DEC buf xid rv prog vers proc f1 b1 f2 b2 args.

Lemma call_dec buf : (exists xid rv prog vers proc f1 b1 f2 b2 args,
  is_call DEC buf xid rv prog vers proc f1 b1 f2 b2 args) \/
  (no_call buf /\ exists N e, forall srv w n, (N <= n)%nat -> make_reply n srv w buf = Ret (w, inl e)).
Proof.
  destruct (msg_outcome buf) as [(w0 & rest & x & E & [n1 K] & Hw & Hy)|(e & r & x & [n1 K])].
  - destruct (decode_call_inv buf rest x) as (xid & mt & c & rb & -> & Hx & Hm & Hz). { exists n1. exact K. }
    destruct (Z.eq_dec mt 0) as [->|Hn].
    + left. destruct (Hz eq_refl) as (rv & prog & vers & proc & f1 & o1 & f2 & o2 & _ & Hc).
      do 10 eexists. exact Hc.
    + right. split.
      * intros xid' rv prog vers proc f1 b1 f2 b2 args Hc. apply decode_call in Hc.
        destruct (runs_det _ _ _ _ _ _ _ _ (ex_intro _ n1 K) Hc) as [_ E']. injection E' as -> ->. congruence.
      * exists n1, (SNotCall mt). intros srv w n Hnn. unfold make_reply. change (MakeReader buf) with (RD buf).
        rewrite (xdr_mono n1 n _ _ _ _ _ Hnn K). cbn [obind Error x_err].
        change (get_int ["Body"; "Mtype"] (msg_val xid mt c rb)) with mt. unfold CALL.
        destruct (Z.eqb_spec mt 0); [contradiction|]. reflexivity.
  - right. split.
    + intros xid' rv prog vers proc f1 b1 f2 b2 args Hc. apply decode_call in Hc.
      destruct (runs_det _ _ _ _ _ _ _ _ (ex_intro _ n1 K) Hc) as [E' _]. discriminate.
    + exists n1, (SXdr e). intros srv w n Hnn. unfold make_reply. change (MakeReader buf) with (RD buf).
      rewrite (xdr_mono n1 n _ _ _ _ _ Hnn K). reflexivity.
Qed.

Definition makes srv w buf w' out : Prop := exists N, forall n, (N <= n)%nat -> make_reply n srv w buf = Ret (w', out).

Lemma makes_sends srv w buf w' rep : makes srv w buf w' (inr (mark (zlen rep) ++ rep)) -> sends srv w buf w' rep.
Proof.
  intros [N H] S C s. exists N. unfold handleReqErr. rewrite (H N (le_n _)). cbn [obind].
  destruct (c_write C s (mark (zlen rep) ++ rep)) as [s' [e|]]; reflexivity.
Qed.
Lemma makes_silent srv w buf w' e : makes srv w buf w' (inl e) -> silent srv w buf w'.
Proof.
  intros [N H] S C s. exists e, N. unfold handleReqErr. rewrite (H N (le_n _)). reflexivity.
Qed.

(** What the request leads to, given the server's tables. *)
Inductive decision srv w (xid rv prog vers proc : Z) (args : list byte) : W -> list byte -> option xdrable -> Prop :=
| D_rpcvers : rv <> 2 -> decision srv w xid rv prog vers proc args w (reply_denied_mismatch xid 0 0) None
| D_prog : rv = 2 -> srv prog = None ->
    decision srv w xid rv prog vers proc args w (reply_accepted xid null_auth 1) None
| D_vers vm : rv = 2 -> srv prog = Some vm -> vm vers = None ->
    decision srv w xid rv prog vers proc args w (reply_accepted xid null_auth 2 ++ be4 0 ++ be4 0) None
| D_proc vm pm : rv = 2 -> srv prog = Some vm -> vm vers = Some pm -> pm proc = None ->
    decision srv w xid rv prog vers proc args w (reply_accepted xid null_auth 3) None
| D_garbage h w' res e : rv = 2 -> find3 srv prog vers proc = Some (Some h) -> handler_ok h ->
    HRuns h (MakeReader args) w (w', res, Some e) ->
    decision srv w xid rv prog vers proc args w' (reply_accepted xid null_auth 4) res
| D_success h w' res : rv = 2 -> find3 srv prog vers proc = Some (Some h) -> handler_ok h ->
    HRuns h (MakeReader args) w (w', res, None) ->
    decision srv w xid rv prog vers proc args w' (reply_accepted xid null_auth 0) res.

Lemma decision_step srv w buf xid rv prog vers proc f1 b1 f2 b2 args w' hdr res :
  is_call DEC buf xid rv prog vers proc f1 b1 f2 b2 args ->
  decision srv w xid rv prog vers proc args w' hdr res ->
  res_ok res /\ exists m N, has_ty rpc_env msg_t m /\ Wire ENC rpc_env msg_t m hdr /\
    forall n, (N <= n)%nat -> make_reply n srv w buf = finish n w' m res.
Proof.
  intros Hc Hd. pose proof (proj1 Hc) as Hx.
  assert (Hu : forall z, 0 <= z <= 4 -> u32 z) by (intros; apply u32_small; lia).
  assert (Hr : forall z, 0 <= z <= 4 -> z <> 2 ->
    Wire ENC rpc_env msg_t (reply_val xid z) (reply_accepted xid null_auth z)).
  { intros z Hz Hn. pose proof (wire_reply xid z Hx (Hu z Hz)) as H.
    destruct (Z.eqb_spec z 2); [contradiction|]. rewrite app_nil_r in H. exact H. }
  destruct (make_reply_call _ _ _ _ _ _ _ _ _ _ _ srv w Hc) as [N HN].
  destruct Hd as [Hv|Hv Hp|vm Hv Hp Hq|vm pm Hv Hp Hq Hs|h w' res e Hv Hf [Hmono Hok] [k Hk]|h w' res Hv Hf [Hmono Hok] [k Hk]].
  - split; [exact I|]. exists (denied_val xid), N. split; [apply denied_ty; exact Hx|].
    split; [apply wire_denied; exact Hx|]. intros n Hn. rewrite HN by exact Hn.
    destruct (Z.eqb_spec rv 2); [contradiction|]. reflexivity.
  - split; [exact I|]. subst rv. exists (reply_val xid 1), N. split; [apply reply_ty; auto; apply Hu; lia|].
    split; [apply Hr; lia|]. intros n Hn. rewrite HN by exact Hn. rewrite Hp. reflexivity.
  - split; [exact I|]. subst rv. exists (reply_val xid 2), N. split; [apply reply_ty; auto; apply Hu; lia|].
    split; [apply (wire_reply xid 2 Hx); apply Hu; lia|].
    intros n Hn. rewrite HN by exact Hn. rewrite Hp, Hq. reflexivity.
  - split; [exact I|]. subst rv. exists (reply_val xid 3), N. split; [apply reply_ty; auto; apply Hu; lia|].
    split; [apply Hr; lia|]. intros n Hn. rewrite HN by exact Hn. rewrite Hp, Hq, Hs. reflexivity.
  - split; [eapply Hok; exists k; exact Hk|]. subst rv. exists (reply_val xid 4), (N + k)%nat. split; [apply reply_ty; auto; apply Hu; lia|].
    split; [apply Hr; lia|]. intros n Hn. rewrite HN by lia. unfold find3 in Hf.
    destruct (srv prog) as [vm|]; [|discriminate]. destruct (vm vers) as [pm|]; [|discriminate]. rewrite Hf.
    rewrite (Hmono k n _ _ _ ltac:(lia) Hk). reflexivity.
  - split; [eapply Hok; exists k; exact Hk|]. subst rv. exists (reply_val xid 0), (N + k)%nat. split; [apply reply_ty; auto; apply Hu; lia|].
    split; [apply Hr; lia|]. intros n Hn. rewrite HN by lia. unfold find3 in Hf.
    destruct (srv prog) as [vm|]; [|discriminate]. destruct (vm vers) as [pm|]; [|discriminate]. rewrite Hf.
    rewrite (Hmono k n _ _ _ ltac:(lia) Hk). reflexivity.
Qed.

Lemma decision_makes srv w buf xid rv prog vers proc f1 b1 f2 b2 args w' hdr res b :
  is_call DEC buf xid rv prog vers proc f1 b1 f2 b2 args ->
  decision srv w xid rv prog vers proc args w' hdr res -> res_wire res b ->
  makes srv w buf w' (inr (mark (zlen (hdr ++ b)) ++ hdr ++ b)).
Proof.
  intros Hc Hd Hb. destruct (decision_step _ _ _ _ _ _ _ _ _ _ _ _ _ _ _ _ Hc Hd) as (Hok & m & N & Ht & Hw & HN).
  destruct (finish_ok w' m hdr res b Ht Hw Hok Hb) as [N' HN']. exists (N + N')%nat. intros n Hn.
  rewrite HN by lia. apply HN'. lia.
Qed.

Lemma decision_unencodable srv w buf xid rv prog vers proc f1 b1 f2 b2 args w' hdr res :
  is_call DEC buf xid rv prog vers proc f1 b1 f2 b2 args ->
  decision srv w xid rv prog vers proc args w' hdr res -> ~ res_bounded res ->
  exists e, makes srv w buf w' (inl e).
Proof.
  intros Hc Hd Hb. destruct (decision_step _ _ _ _ _ _ _ _ _ _ _ _ _ _ _ _ Hc Hd) as (Hok & m & N & Ht & Hw & HN).
  destruct res as [r|]; [|exfalso; apply Hb; exact I].
  destruct (finish_err w' m hdr r Ht Hw Hok Hb) as (N' & e & HN'). exists (SXdr e), (N + N')%nat. intros n Hn.
  rewrite HN by lia. apply HN'. lia.
Qed.

Lemma res_wire_dec o : res_ok o -> (exists b, res_wire o b) \/ ~ res_bounded o.
Proof.
  destruct o as [r|]; [|left; exists []; reflexivity]. intros [(D & HwE & Hwt & Hz) Htr].
  destruct (enc_outcome D _ _ HwE Hwt [] (xv_val r) Htr) as (w & [[_ Hx]|(e & _ & H)]); [left; exists w; exact Hx|right; exact H].
Qed.
Lemma res_wire_bounded o b : res_ok o -> res_wire o b -> res_bounded o.
Proof.
  destruct o as [r|]; [|intros; exact I]. intros [(D & HwE & Hwt & Hz) Htr] Hx.
  apply (proj1 (proj1 (proj2 (c03 D _ _ HwE Hwt _ Htr)) b None
          (proj2 (Encode_ok_wire D _ _ HwE Hwt _ b Htr) Hx)) eq_refl).
Qed.

(** Every run of the server on a call is one of the decisions. *)
Lemma decision_complete srv l w buf xid rv prog vers proc f1 b1 f2 b2 args n w' out :
  reach srv l -> regs_ok l ->
  is_call DEC buf xid rv prog vers proc f1 b1 f2 b2 args ->
  make_reply n srv w buf = Ret (w', out) ->
  (forall N m r, (N <= m)%nat -> make_reply N srv w buf = Ret r -> make_reply m srv w buf = Ret r) ->
  exists hdr res, decision srv w xid rv prog vers proc args w' hdr res.
Proof.
  intros Hreach Hregs Hc H Hmono.
  destruct (make_reply_call _ _ _ _ _ _ _ _ _ _ _ srv w Hc) as [N HN].
  apply (Hmono n (n + N)%nat) in H; [|lia]. rewrite HN in H by lia.
  assert (HF : forall w1 m r, finish (n + N) w1 m r = Ret (w', out) -> w1 = w').
  { intros w1 m r. unfold finish. intros HF.
    apply obind_ret in HF. destruct HF as ([wr x] & _ & HF). destruct (Error wr); [congruence|].
    apply obind_ret in HF. destruct HF as (wr' & _ & HF). destruct (Error wr'); congruence. }
  destruct (Z.eqb_spec rv 2) as [->|Hv]; cbn [negb] in H.
  2:{ cbn [obind] in H. apply HF in H. subst. do 2 eexists. apply D_rpcvers. exact Hv. }
  destruct (srv prog) as [vm|] eqn:Ep.
  2:{ cbn [obind] in H. apply HF in H. subst. do 2 eexists. apply D_prog; auto. }
  destruct (vm vers) as [pm|] eqn:Ev.
  2:{ cbn [obind] in H. apply HF in H. subst. do 2 eexists. eapply D_vers; eauto. }
  destruct (pm proc) as [[h|]|] eqn:Epr.
  - assert (Hf : find3 srv prog vers proc = Some (Some h)) by (unfold find3; rewrite Ep, Ev; exact Epr).
    assert (Hok : handler_ok h).
    { apply (c33_find _ _ _ _ _ _ Hreach) in Hf. destruct Hf as (pre & post & -> & _).
      eapply Hregs; [apply in_or_app; right; left; reflexivity|reflexivity]. }
    apply obind_ret in H. destruct H as ([[w1 res] m] & H1 & H).
    apply obind_ret in H1. destruct H1 as ([[w2 res2] e2] & Hh & H1).
    destruct e2 as [e2|]; injection H1 as <- <- <-; apply HF in H; subst w2.
    + do 2 eexists. eapply D_garbage; eauto. exists (n + N)%nat. exact Hh.
    + do 2 eexists. eapply D_success; eauto. exists (n + N)%nat. exact Hh.
  - discriminate.
  - cbn [obind] in H. apply HF in H. subst. do 2 eexists. eapply D_proc; eauto.
Qed.

Lemma finish_mono n m w res o r : (n <= m)%nat -> finish n w res o = Ret r -> finish m w res o = Ret r.
Proof.
  intros Hm H. unfold finish in *.
  apply obind_ret in H. destruct H as ([wr x] & H1 & H).
  rewrite (xdr_mono n m _ _ _ _ _ Hm H1). cbn [obind]. destruct (Error wr); [exact H|].
  apply obind_ret in H. destruct H as (wr' & H2 & H). destruct o as [rr|].
  - apply obind_ret in H2. destruct H2 as ([wr2 x2] & H2 & H3).
    rewrite (xdr_mono n m _ _ _ _ _ Hm H2). cbn [obind]. injection H3 as <-. exact H.
  - rewrite H2. exact H.
Qed.

Lemma make_reply_mono srv l w buf n m r : reach srv l -> regs_ok l -> (n <= m)%nat ->
  make_reply n srv w buf = Ret r -> make_reply m srv w buf = Ret r.
Proof.
  intros Hreach Hregs Hm H. unfold make_reply in *.
  apply obind_ret in H. destruct H as ([rd x] & H1 & H).
  rewrite (xdr_mono n m _ _ _ _ _ Hm H1). cbn [obind]. destruct (Error rd); [exact H|].
  destruct (negb _); [exact H|].
  apply obind_ret in H. destruct H as ([[w1 res] rdat] & H2 & H).
  assert (H2' : dispatch m srv w rd x = Ret (w1, res, rdat)).
  { unfold dispatch in *. destruct (negb _); [exact H2|].
    destruct (srv (get_int ["Body"; "Cbody"; "Prog"] x)) as [vm|] eqn:Ep; [|exact H2].
    destruct (vm (get_int ["Body"; "Cbody"; "Vers"] x)) as [pm|] eqn:Ev; [|exact H2].
    destruct (pm (get_int ["Body"; "Cbody"; "Proc"] x)) as [[h|]|] eqn:Epr; [|exact H2|exact H2].
    apply obind_ret in H2. destruct H2 as ([[w2 r2] e2] & Hh & H2).
    assert (Hok : handler_ok h).
    { assert (Hf : find3 srv (get_int ["Body"; "Cbody"; "Prog"] x) (get_int ["Body"; "Cbody"; "Vers"] x)
        (get_int ["Body"; "Cbody"; "Proc"] x) = Some (Some h)) by (unfold find3; rewrite Ep, Ev; exact Epr).
      apply (c33_find _ _ _ _ _ _ Hreach) in Hf. destruct Hf as (pre & post & -> & _).
      eapply Hregs; [apply in_or_app; right; left; reflexivity|reflexivity]. }
    rewrite (proj1 Hok n m _ _ _ Hm Hh). exact H2. }
  rewrite H2'. cbn [obind]. apply (finish_mono n m _ _ _ _ Hm). exact H.
Qed.

Lemma Handles_det {S} (C : conn S) srv l s w buf s1 w1 e1 s2 w2 e2 : reach srv l -> regs_ok l ->
  Handles C srv s w buf s1 w1 e1 -> Handles C srv s w buf s2 w2 e2 -> s1 = s2 /\ w1 = w2 /\ e1 = e2.
Proof.
  intros Hr Hg [n H] [m K]. unfold handleReqErr in *.
  apply obind_ret in H. destruct H as (a & Ha & H). apply obind_ret in K. destruct K as (b & Hb & K).
  apply (make_reply_mono _ _ _ _ n (n + m) _ Hr Hg) in Ha; [|lia].
  apply (make_reply_mono _ _ _ _ m (n + m) _ Hr Hg) in Hb; [|lia].
  rewrite Ha in Hb. injection Hb as <-. rewrite H in K. injection K as -> -> ->. auto.
Qed.
End P.
