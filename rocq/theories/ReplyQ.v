(** Client and server together when the server turns the call down. *)
From Verif Require Import Bytes XdrLib Types Interp Spec Meta Canon Runs Codec RpcTypes RpcSpec RpcWire RpcDec Io Client CallSpec ClientP
  Server ServSpec ServerP ServerQ ServerX E2E ReplySpec ReplyP.
Open Scope string_scope.
Open Scope Z_scope.
Open Scope list_scope.

Section V.
Context {W : Type}.

(** ** Vocabulary of the statements *)
(** Call [q] of program [prog], version [vers], has to be turned down by a server with registrations [l], with this
    accept_stat (RFC 1057, 8): PROG_UNAVAIL, PROG_MISMATCH, PROC_UNAVAIL, GARBAGE_ARGS. *)
Inductive turned_down (l : list (registration W)) (prog vers : Z) (q : callreq) : Z -> Prop :=
| T_prog : ~ known_prog l prog -> turned_down l prog vers q 1
| T_vers : known_prog l prog -> ~ known_vers l prog vers -> turned_down l prog vers q 2
| T_proc : known_vers l prog vers -> ~ known_proc l prog vers (rq_proc q) -> turned_down l prog vers q 3
| T_args h E targ tres user : last_for l prog vers (rq_proc q) (Some h) -> agrees h (stub E targ tres user) ->
    user_ok E targ tres user ->
    (forall b x, Wire ENC (xv_env (rq_args q)) (xv_ty (rq_args q)) (xv_val (rq_args q)) b -> ~ arg_decodes E targ b x) ->
    turned_down l prog vers q 4.

(** What becomes of call [q] made in world [w]: carried out, with an answer, or turned down, the world staying as it is. *)
Inductive fate : Type := Answered (a : answer) | TurnedDown (stat : Z).
Inductive meets (l : list (registration W)) (xid prog vers : Z) (q : callreq) (w : W) : W -> fate -> Prop :=
| M_answered w' a : invokes l xid prog vers q w w' a -> meets l xid prog vers q w w' (Answered a)
| M_turned_down stat : turned_down l prog vers q stat -> (forall m, request xid prog vers q m -> zlen m < 2 ^ 31) ->
    meets l xid prog vers q w w (TurnedDown stat).
Inductive meets_all (l : list (registration W)) (prog vers : Z) : Z -> list callreq -> W -> W -> list fate -> Prop :=
| MA_nil xid w : meets_all l prog vers xid [] w w []
| MA_cons xid q qs w w1 w2 f fs : meets l xid prog vers q w w1 f -> meets_all l prog vers ((xid + 1) mod 2 ^ 32) qs w1 w2 fs ->
    meets_all l prog vers xid (q :: qs) w w2 (f :: fs).

(** What the caller sees: result variable and error of Call. *)
Definition sees (q : callreq) (f : fate) (r : val * option cerr) : Prop :=
  match f with
  | Answered a => delivered a (fst r) /\ snd r = None
  | TurnedDown stat => r = (xv_val (rq_resp q), Some (CAccept stat))
  end.
End V.

Lemma link_verdict {W} n0 ch1 ch2 (srv : server W) c q s s1 m : client_ok c -> req_ok q -> encodable q ->
  (forall msg, request (next_xid c) (cl_prog c) (cl_vers c) q msg ->
     c_write (link_conn n0 ch1 ch2 srv) s (mark (zlen msg) ++ msg) = (s1, None)) ->
  chunks_ok (si_in (lk_str s1)) -> List.concat (si_in (lk_str s1)) = record m -> zlen m < 2 ^ 31 ->
  exists v e, Calls (link_conn n0 ch1 ch2 srv) c s q (incr_xid c)
      (mkLink (lk_sent s1) (lk_done s1) (lk_w s1) (mkStream [] (si_end (lk_str s1)) (si_out (lk_str s1)))) v e /\
    verdict (next_xid c) m (rq_resp q) v e.
Proof.
  intros Hc Hq He Hw Hcs Hcat Hm.
  destruct (link_call n0 ch1 ch2 srv c q s s1 m Hc Hq He Hw Hcs Hcat Hm) as (v & e & H & _).
  exists v, e. split; [exact H|].
  destruct (calls_go _ _ _ _ _ _ _ _ Hc Hq H) as [_ G].
  destruct s1 as [sent dn w [cs en out]]. cbn [lk_str si_in si_end si_out lk_sent lk_done lk_w] in *.
  destruct (read_record cs en out m [] Hcs) as (cs1 & cs2 & Hc2 & Hcat2 & R1 & Hv & R2).
  { rewrite app_nil_r. exact Hcat. } { exact Hm. }
  pose proof (zlen_nonneg m).
  apply (link_ReadFull n0 ch1 ch2 srv (mkLink sent dn w (mkStream cs en out))) in R1.
  apply (link_ReadFull n0 ch1 ch2 srv (mkLink sent dn w (mkStream cs1 en out))) in R2.
  cbn [lk_sent lk_done lk_w] in R1, R2.
  replace (zlen m) with (be_val (be4 (2 ^ 31 + zlen m)) - 2 ^ 31) in R2 at 1 by lia.
  exact (proj2 (call_goes_reply _ _ _ _ _ _ _ _ _ _ m _ _ _ He Hw R1 ltac:(lia) R2 G)).
Qed.

Section Run.
Context {W : Type}.
Variables (srv : server W) (l : list (registration W)) (ch1 ch2 : list byte -> list (list byte)).
Hypothesis Hr : reach srv l.
Hypothesis Hg : regs_ok l.
Hypothesis Hch1 : chunker ch1.
Hypothesis Hch2 : chunker ch2.

(** The reply a turned down call gets. *)
Definition down_reply (xid stat : Z) : list byte :=
  reply_accepted xid null_auth stat ++ (if stat =? 2 then be4 0 ++ be4 0 else []).

Lemma down_decision c q w msg stat : client_ok c -> req_ok q -> request (next_xid c) (cl_prog c) (cl_vers c) q msg ->
  turned_down l (cl_prog c) (cl_vers c) q stat ->
  makes srv w msg w (inr (mark (zlen (down_reply (next_xid c) stat)) ++ down_reply (next_xid c) stat)).
Proof.
  intros Hc Hq Hmsg Ht. destruct (request_call c q msg Hc Hq Hmsg) as (f1 & b1 & f2 & b2 & wargs & Hcall & Hwa).
  assert (K : forall hdr, decision srv w (next_xid c) 2 (cl_prog c) (cl_vers c) (rq_proc q) wargs w hdr None ->
    makes srv w msg w (inr (mark (zlen hdr) ++ hdr))).
  { intros hdr Hd. rewrite <- (app_nil_r hdr). eapply decision_makes; [exact Hcall|exact Hd|reflexivity]. }
  apply K. clear K. unfold down_reply. destruct Ht as [Hn|Hp Hn|Hp Hn|h E targ tres user Hl Ha Hu Hn]; cbn [Z.eqb Pos.eqb]; rewrite ?app_nil_r.
  - apply D_prog; [reflexivity|]. destruct (srv (cl_prog c)) eqn:Es; [|reflexivity]. exfalso. apply Hn.
    apply (c33_prog _ _ _ Hr). congruence.
  - apply (c33_prog _ _ _ Hr) in Hp. destruct (srv (cl_prog c)) as [vm|] eqn:Es; [|congruence].
    eapply D_vers; [reflexivity|exact Es|]. destruct (vm (cl_vers c)) as [pm|] eqn:Ev; [|reflexivity].
    exfalso. apply Hn. apply (c33_vers _ _ _ _ Hr). exists vm, pm. auto.
  - apply (c33_vers _ _ _ _ Hr) in Hp. destruct Hp as (vm & pm & Es & Ev).
    eapply D_proc; [reflexivity|exact Es|exact Ev|]. destruct (pm (rq_proc q)) as [h|] eqn:Ep; [|reflexivity].
    exfalso. apply Hn. apply (c33_proc _ _ _ _ _ Hr). unfold find3. rewrite Es, Ev. congruence.
  - destruct (find_ok _ _ _ _ _ _ Hr Hg Hl) as [Hf Ho].
    destruct (arg_dec _ _ _ _ Hu wargs) as [[x Hx]|[Hbad _]]; [exfalso; exact (Hn _ _ Hwa Hx)|].
    destruct (Hbad w) as [e Hrun]. apply Ha in Hrun. eapply D_garbage; [reflexivity|exact Hf|exact Ho|exact Hrun].
Qed.

Lemma down_stat prog vers q stat : turned_down l prog vers q stat -> 1 <= stat <= 4.
Proof. intros []; lia. Qed.
Lemma down_head xid stat : u32 xid -> 1 <= stat <= 4 -> msg_head (down_reply xid stat) xid (KAccepted stat) [].
Proof.
  intros Hx Hs. unfold down_reply.
  assert (Hn : auth DEC 0 [] null_auth).
  { change null_auth with (be4 0 ++ be4 (zlen (@nil byte)) ++ [] ++ []). constructor; [apply u32_0|cbn; lia|].
    split; [cbn; lia|]. split; [reflexivity|]. discriminate. }
  destruct (Z.eqb_spec stat 2) as [->|Hne].
  - replace (be4 0 ++ be4 0) with (be4 0 ++ be4 0 ++ []) by reflexivity.
    eapply H_prog_mismatch; [exact Hx|exact Hn|apply u32_0|apply u32_0].
  - eapply H_accepted; [exact Hx|exact Hn|apply u32_small; lia|exact Hne].
Qed.
Lemma down_len xid stat : zlen (down_reply xid stat) < 2 ^ 31.
Proof.
  unfold down_reply, reply_accepted, null_auth, zlen. rewrite !app_length, !be4_len.
  destruct (stat =? 2); rewrite ?app_length, ?be4_len; cbn; lia.
Qed.
Lemma down_verdict xid stat resp v e : u32 xid -> 1 <= stat <= 4 -> verdict xid (down_reply xid stat) resp v e ->
  v = xv_val resp /\ e = Some (CAccept stat).
Proof.
  intros Hx Hs V. pose proof (down_head _ _ Hx Hs) as Hh.
  destruct V as [e Hn|x k rest e Hh' He|rest v e Hh' _].
  - exfalso. exact (Hn _ _ _ Hh).
  - destruct (head_unique _ _ _ _ _ _ _ Hh Hh') as (<- & <- & _). unfold refusal in He. rewrite Z.eqb_refl in He.
    destruct (Z.eqb_spec stat 0); [lia|]. split; [reflexivity|symmetry; exact He].
  - destruct (head_unique _ _ _ _ _ _ _ Hh Hh') as (_ & E & _). injection E as ->. lia.
Qed.

Lemma down_one c q s stat : client_ok c -> req_ok q -> encodable q -> idle s ->
  turned_down l (cl_prog c) (cl_vers c) q stat ->
  (forall m, request (next_xid c) (cl_prog c) (cl_vers c) q m -> zlen m < 2 ^ 31) ->
  exists N s', idle s' /\ lk_w s' = lk_w s /\
    forall n, (N <= n)%nat ->
      Calls (link_conn n ch1 ch2 srv) c s q (incr_xid c) s' (xv_val (rq_resp q)) (Some (CAccept stat)).
Proof.
  intros Hc Hq He Hi Ht Hsize.
  destruct (call_request_spec _ _ (incr_ok _ Hc) Hq) as (_ & [[_ (msg & Hmsg & _)]|[Hne _]]); [|contradiction].
  change (request (next_xid c) (cl_prog c) (cl_vers c) q msg) in Hmsg.
  pose proof (down_decision c q (lk_w s) msg stat Hc Hq Hmsg Ht) as Hmk.
  pose proof (down_len (next_xid c) stat) as Hrl.
  set (rep := down_reply (next_xid c) stat) in *.
  destruct (link_write srv ch1 ch2 Hch1 s msg rep (lk_w s) Hi (Hsize _ Hmsg) Hmk) as [N HN].
  destruct (Hch2 (mark (zlen rep) ++ rep)) as [Hcat Hok].
  exists N. eexists. split; [|split].
  3:{ intros n Hn.
    assert (HW : forall m, request (next_xid c) (cl_prog c) (cl_vers c) q m ->
      c_write (link_conn n ch1 ch2 srv) s (mark (zlen m) ++ m) =
      (mkLink (lk_sent s ++ record msg) (S (lk_done s)) (lk_w s)
         (mkStream (ch2 (mark (zlen rep) ++ rep)) (si_end (lk_str s)) (si_out (lk_str s))), None)).
    { intros m Hm. rewrite (req_unique (incr_xid c) q m msg (incr_ok _ Hc) Hq Hm Hmsg). apply HN. exact Hn. }
    destruct (link_verdict n ch1 ch2 srv c q s _ rep Hc Hq He HW) as (v' & e & Hcl & V).
    { exact Hok. } { cbn [lk_str si_in]. rewrite Hcat. apply mark_record. exact Hrl. } { exact Hrl. }
    destruct (down_verdict _ _ _ _ _ (proj1 (incr_ok _ Hc)) (down_stat _ _ _ _ Ht) V) as [-> ->]. exact Hcl. }
  - destruct Hi as [(ms & Hms & Hsent & Hdone) Hin]. split; [|reflexivity].
    exists (ms ++ [msg]). cbn [lk_sent lk_done]. split; [|split].
    + apply Forall_app. split; [exact Hms|]. constructor; [exact (Hsize _ Hmsg)|constructor].
    + rewrite Hsent, map_app, concat_app. cbn. rewrite app_nil_r. reflexivity.
    + rewrite Hdone, app_length. cbn. lia.
  - reflexivity.
Qed.

Lemma meets_one c q s w' f : client_ok c -> req_ok q -> encodable q -> idle s ->
  meets l (next_xid c) (cl_prog c) (cl_vers c) q (lk_w s) w' f ->
  exists N s' r, idle s' /\ lk_w s' = w' /\ sees q f r /\
    forall n, (N <= n)%nat -> Calls (link_conn n ch1 ch2 srv) c s q (incr_xid c) s' (fst r) (snd r).
Proof.
  intros Hc Hq He Hi [w1 a Ha|stat Ht Hs].
  - destruct (e2e_one srv l ch1 ch2 Hr Hg Hch1 Hch2 c q s w1 a Hc Hq He Hi Ha) as (N & s' & v & Hi' & Hw & Hd & HN).
    exists N, s', (v, None). split; [exact Hi'|]. split; [exact Hw|]. split; [split; [exact Hd|reflexivity]|]. exact HN.
  - destruct (down_one c q s stat Hc Hq He Hi Ht Hs) as (N & s' & Hi' & Hw & HN).
    exists N, s', (xv_val (rq_resp q), Some (CAccept stat)). split; [exact Hi'|]. split; [exact Hw|]. split; [reflexivity|]. exact HN.
Qed.

Lemma meets_seq qs : forall c s w' fs, client_ok c -> Forall req_ok qs -> Forall encodable qs -> idle s ->
  meets_all l (cl_prog c) (cl_vers c) (next_xid c) qs (lk_w s) w' fs ->
  exists N c' s' rs, idle s' /\ lk_w s' = w' /\ Forall2 (fun qf r => sees (fst qf) (snd qf) r) (combine qs fs) rs /\
    forall n, (N <= n)%nat -> CallSeq (link_conn n ch1 ch2 srv) c s qs c' s' rs.
Proof.
  induction qs as [|q qs IH]; intros c s w' fs Hc Hq He Hi Ha; inversion Ha as [xid w Hx|xid q' qs' w w1 w2 f fs' H1 H2]; subst.
  - exists 0%nat, c, s, []. split; [exact Hi|]. split; [reflexivity|]. split; [constructor|]. intros. constructor.
  - inversion Hq as [|? ? Hq1 Hq2]; subst. inversion He as [|? ? He1 He2]; subst.
    destruct (meets_one c q s w1 f Hc Hq1 He1 Hi H1) as (N1 & s1 & [v e] & Hi1 & <- & Hd & HN1).
    destruct (IH (incr_xid c) s1 w' fs' (incr_ok _ Hc) Hq2 He2 Hi1 H2) as (N2 & c' & s' & rs & Hi' & Hw' & Hvs & HN2).
    exists (N1 + N2)%nat, c', s', ((v, e) :: rs). split; [exact Hi'|]. split; [exact Hw'|]. split; [constructor; assumption|].
    intros n Hn. econstructor; [apply HN1; lia|apply HN2; lia].
Qed.

(** Every call meets some fate, if user procedures return and results fit. *)
Lemma known_dec prog vers proc : (exists h, last_for l prog vers proc h) \/ ~ known_prog l prog \/
  (known_prog l prog /\ ~ known_vers l prog vers) \/ (known_vers l prog vers /\ ~ known_proc l prog vers proc).
Proof.
  destruct (c33 srv l Hr prog vers proc) as (P & V & F & L).
  destruct (srv prog) as [vm|] eqn:Es; [|right; left; intros K; apply P in K; congruence].
  destruct (vm vers) as [pm|] eqn:Ev.
  2:{ right; right; left. split; [apply P; congruence|]. intros K. apply V in K. destruct K as (vm' & [= <-] & K). congruence. }
  destruct (pm proc) as [h|] eqn:Ep.
  - left. exists h. apply F. exists vm, pm. auto.
  - right; right; right. split; [apply V; exists vm; split; [reflexivity|congruence]|].
    intros K. apply L in K. destruct K as [h K]. apply F in K. destruct K as (vm' & pm' & [= <-] & K1 & K2). congruence.
Qed.
End Run.

(** What arrived decides, but for the name of the XDR error in a message that is none. *)
Lemma verdict_unique xid m resp v e v' e' : verdict xid m resp v e -> verdict xid m resp v' e' ->
  v = v' /\ (e = e' \/ exists a b, e = Some (CXdr a) /\ e' = Some (CXdr b) /\ forall x k rest, ~ msg_head m x k rest).
Proof.
  intros V V'. destruct V as [e Hn|x k rest e Hh He|rest v e Hh Hd]; destruct V' as [e' Hn'|x' k' rest' e' Hh' He'|rest' v' e' Hh' Hd'];
    try (exfalso; eapply Hn; eassumption); try (exfalso; eapply Hn'; eassumption).
  - split; [reflexivity|]. right. eauto.
  - destruct (head_unique _ _ _ _ _ _ _ Hh Hh') as (<- & <- & _). split; [reflexivity|]. left. congruence.
  - destruct (head_unique _ _ _ _ _ _ _ Hh Hh') as (<- & -> & _). unfold refusal in He. rewrite Z.eqb_refl in He. discriminate.
  - destruct (head_unique _ _ _ _ _ _ _ Hh Hh') as (<- & <- & _). unfold refusal in He'. rewrite Z.eqb_refl in He'. discriminate.
  - destruct (head_unique _ _ _ _ _ _ _ Hh Hh') as (_ & _ & <-). destruct (Decode_det _ _ _ _ _ _ _ _ Hd Hd') as [<- <-]. auto.
Qed.

(** A server on which nothing is registered. *)
Lemma empty_server (W : Type) ch1 ch2 : chunker ch1 -> chunker ch2 ->
  forall c q (s : link W), client_ok c -> req_ok q -> encodable q -> idle s ->
  (forall m, request (next_xid c) (cl_prog c) (cl_vers c) q m -> zlen m < 2 ^ 31) ->
  exists N s', idle s' /\ lk_w s' = lk_w s /\ forall n, (N <= n)%nat ->
    Calls (link_conn n ch1 ch2 MakeServer) c s q (incr_xid c) s' (xv_val (rq_resp q)) (Some (CAccept 1)).
Proof.
  intros H1 H2 c q s Hc Hq He Hi Hs. apply (down_one MakeServer [] ch1 ch2 (R_make) ltac:(intros r h []) H1 H2); try assumption.
  apply T_prog. intros (r & [] & _).
Qed.
