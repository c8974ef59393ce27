(** /repo/rfc1057/server.go:107-182, as its text says, computes what Server.v says: one request, from its bytes to its reply. *)
From Verif Require Import GoLex SrcAst SrcProg.
From Verif Require Import Bytes XdrLib Types Interp Total Heap HeapP HeapX RpcTypes Io Client ClientP Server SrcSem SrcLib SrcLibB SrcLibC SrcRpc SrcMsg SrcCli SrcCliB SrcReg SrcSrv.
Open Scope string_scope.
Open Scope Z_scope.
Open Scope list_scope.

Local Strategy expand [obind].
Local Strategy opaque [run].

Lemma sub_04 h o : gvalid h o -> (4 <= glen o)%nat ->
  exists s c, subslice o (Some 0) (Some 4) None = Ret (Some (mkSl (sl_blk s) (sl_off s + 0) 4 c)) /\ o = Some s.
Proof.
  intros Hv Hk. unfold subslice. assert (glen o <= gcap o)%nat by (destruct o as [s|]; cbn in *; [apply Hv|lia]).
  replace ((0 <=? 0) && (0 <=? 4) && (4 <=? Z.of_nat (gcap o)) && (Z.of_nat (gcap o) <=? Z.of_nat (gcap o))) with true.
  - destruct o as [s|]; [|cbn in Hk; lia]. exists s, (Z.to_nat (Z.of_nat (gcap (Some s)) - 0)). split; reflexivity.
  - symmetry. rewrite !Z.leb_refl. cbn [andb]. rewrite (proj2 (Z.leb_le 4 _)) by lia. reflexivity.
Qed.
Lemma mark_sub4 x : to_u32 (Z.lor 2147483648 (to_u32 (to_s64 (x - 4)))) = rec_mark (x - 4).
Proof.
  replace (to_u32 (to_s64 (x - 4))) with (to_u32 (x - 4)); [apply mark_u32|]. set (y := x - 4). unfold to_s64, to_u32.
  pose proof (Z.div_mod (y + 2 ^ 63) (2 ^ 64) ltac:(lia)) as E.
  replace ((y + 2 ^ 63) mod 2 ^ 64 - 2 ^ 63) with (y + - ((y + 2 ^ 63) / 2 ^ 64 * 2 ^ 32) * 2 ^ 32) by lia.
  symmetry. apply Z.mod_add. lia.
Qed.
Ltac resume_srv := match goal with |- context [skipn ?k ?b] => let v := eval cbv [skipn fbody server_serverConn_handleReqErr] in (skipn k b) in change (skipn k b) with v end.

Section Server.
Context {S U : Type}.
Variable grow : nat -> nat -> nat.
Hypothesis grow_ok : grows grow.
Variable N : nat.
Variable C : conn S.
Variable rw : nat.
Variable hs : nat -> handler U.
Variable ext : string -> list gv -> mem (world S U) -> outcome (mem (world S U) * list gv).
Hypothesis M : meets grow N C rw hs ext.
Notation Run := (rpc_run grow ext).
Notation RunX k := (run grow rpc_pkgs rpc_consts rpc_structs rpc_pkg ext (Datatypes.S k)).
Notation gsconn := (gsconn rw).
Notation srv_at := (srv_at hs).

(** server.go:176-182 *)
Definition write_reply (s : S) (wbuf : list byte) : S * option serr :=
  let '(s', e) := c_write C s (put_u32 (rec_mark (zlen wbuf - 4)) ++ skipn 4 wbuf) in (s', option_map SIo e).
(** server.go:164-182 *)
Definition data_reply (s : S) (wr : xst) (resdata : option xdrable) : outcome (S * option serr) :=
  match Error wr with
  | Some e => Ret (s, Some (SXdr e))
  | None =>
      'wr <- match resdata with
             | None => Ret wr
             | Some r => '(wr, _) <- xdr N (xv_env r) (xv_ty r) wr (xv_val r) ;; Ret wr
             end ;;
      match Error wr with
      | Some e => Ret (s, Some (SXdr e))
      | None => Ret (write_reply s (WriteBuf wr))
      end
  end.
(** server.go:158-182 *)
Definition send_reply (s : S) (res : val) (resdata : option xdrable) : outcome (S * option serr) :=
  '(wr, _) <- xdr N rpc_env msg_t (MakeWriter (zeros 4)) res ;; data_reply s wr resdata.

Definition scont (n k : nat) (m : mem (world S U)) (en : genv) : outcome (mem (world S U) * list gv) :=
  obind (exec_body grow rpc_pkgs rpc_consts rpc_structs (RunX n) (Datatypes.S n) None (skipn k (fbody server_serverConn_handleReqErr)) m en) (finish [EId "error"]).
Lemma scont_eq n k m en b : skipn k (fbody server_serverConn_handleReqErr) = b ->
  scont n k m en = obind (exec_body grow rpc_pkgs rpc_consts rpc_structs (RunX n) (Datatypes.S n) None b m en) (finish [EId "error"]).
Proof. intros <-. reflexivity. Qed.

Lemma write_text n h cs w top p a s v vl vr vq va vb :
  nth_error cs p = Some (gsconn top) -> nth_error cs a = Some (vstate s) -> gvalid h (h_buf s) -> (4 <= glen (h_buf s))%nat ->
  let r := write_reply (w_conn w) (gread h (h_buf s)) in
  exists h', differs_at anywhere h h' /\
    scont n 18 (mkMem h cs w) [("wr", WPtr a); ("reserveLen", vl); ("resdata", v); ("res", vr); ("err", WNil); ("req", vq); ("rd", va); ("sc", WPtr p); ("buf", vb)] =
    Ret (mkMem h' cs (set_conn w (fst r)), [vserr (snd r)]).
Proof.
  intros Hp Ha Vb L4 r. subst r. unfold SrcSrv.gsconn in Hp. unfold write_reply. set (wb := gread h (h_buf s)). set (B := put_u32 _ ++ skipn 4 wb).
  unfold scont. resume_srv. step. rewrite (call_buf grow N C rw hs ext M _ _ _ _ _ s Ha). gor. step.
  destruct (sub_04 h (h_buf s) Vb L4) as (sl & k & X & Es). rewrite X. gor. rewrite mark_sub4.
  assert (HZ : Z.of_nat (glen (h_buf s)) = zlen wb) by (unfold zlen, wb; rewrite gread_len by exact Vb; reflexivity).
  rewrite HZ. clear HZ. set (mk := put_u32 (rec_mark (zlen wb - 4))) in *. assert (Lm : List.length mk = 4%nat) by reflexivity. clearbody mk.
  match goal with |- context [hstore h ?o mk] => set (h1 := hstore h o mk); assert (E1 : h1 = hstore h (h_buf s) mk) by (unfold h1; rewrite Es; cbn [hstore sl_blk sl_off]; rewrite Nat.add_0_r; reflexivity) end.
  assert (D1 : differs_at anywhere h h1).
  { eapply differs_weaken; [rewrite E1; apply hstore_differs; [exact Vb|lia]|]. intros; exact I. }
  assert (R1 : gread h1 (h_buf s) = B) by (rewrite E1, hstore_read by (try exact Vb; lia); rewrite Lm; reflexivity).
  clearbody h1. clear E1. step. rewrite run_ext' by reflexivity.
  destruct (m_write _ _ _ _ _ _ M h1 cs w (h_buf s) (gvalid_differs _ _ _ _ D1 Vb)) as [k0 Y]. rewrite Y, R1. clear Y.
  exists h1. split; [exact D1|]. destruct (c_write C (w_conn w) B) as [t e]. cbn [fst snd option_map].
  destruct e as [e|].
  - destruct (vio_some e) as (f & l & Ev). rewrite Ev. gor. step. step. cbn [finish]. gor. rewrite <- Ev. reflexivity.
  - change (vio None) with WNil. gor. step. step. cbn [finish]. gor. reflexivity.
Qed.

Lemma data_text n h cs w top p a s v rd vl vr vq va vb :
  nth_error cs p = Some (gsconn top) -> nth_error cs a = Some (vstate s) -> gvalid h (h_buf s) -> (4 <= glen (h_buf s))%nat -> h_reader s = false -> p <> a ->
  match rd with
  | None => v = WNil
  | Some y => exists i hv, v = WObj i /\ nth_error (w_objs w) i = Some (xv_env y, xv_ty y, hv) /\ safe h s hv /\ deref h hv = xv_val y
  end ->
  agrees (fun x y => exists h' cs' w', y = (mkMem h' cs' w', [vserr (snd x)]) /\ w_conn w' = fst x /\ w_user w' = w_user w /\ w_log w' = w_log w /\
      differs_at anywhere h h' /\ (forall i, i <> a -> (i < List.length cs)%nat -> nth_error cs' i = nth_error cs i))
    (data_reply (w_conn w) (habs h s) rd)
    (scont n 16 (mkMem h cs w) [("wr", WPtr a); ("reserveLen", vl); ("resdata", v); ("res", vr); ("err", verr (h_err s)); ("req", vq); ("rd", va); ("sc", WPtr p); ("buf", vb)]).
Proof.
  intros Hp Ha Vb L4 Hrd Npa Hv. match goal with |- agrees ?R _ _ => set (R0 := R) end. unfold SrcSrv.gsconn in Hp.
  assert (La : (a < List.length cs)%nat) by (apply nth_error_Some; congruence).
  assert (DA : forall h', differs_at anywhere h h' -> differs_at anywhere h h') by auto.
  unfold scont. resume_srv. unfold data_reply. change (Error (habs h s)) with (h_err s).
  destruct (h_err s) as [e|] eqn:E1.
  { destruct (verr_some e) as (f & l & Ev). rewrite Ev. step. step. cbn [finish obind]. gor. rewrite <- Ev.
    exists h, cs, w. repeat (split; [reflexivity|]). split; [apply differs_refl|]. auto. }
  change (verr None) with WNil. step. destruct rd as [y|].
  2:{ subst v. cbn [obind]. change (Error (habs h s)) with (h_err s). rewrite E1. step.
    destruct (write_text n h cs w top p a s WNil vl vr vq va vb Hp Ha Vb L4) as (h1 & D1 & Z).
    erewrite scont_eq in Z by (cbv [skipn fbody server_serverConn_handleReqErr]; reflexivity). rewrite after_next. unfold rest.
    rewrite Z. exists h1, cs, (set_conn w (fst (write_reply (w_conn w) (gread h (h_buf s))))). repeat (split; [reflexivity|]). split; [exact D1|]. auto. }
  destruct Hv as (ir & hv & -> & Ho & Sf & Dv). step. rewrite run_ext' by reflexivity.
  pose proof (m_xdr _ _ _ _ _ _ M h cs w a s ir (xv_env y) (xv_ty y) hv Ha Ho Vb Sf) as X. rewrite Dv in X.
  destruct (xdr N (xv_env y) (xv_ty y) (habs h s) (xv_val y)) as [[wr vq2]| |] eqn:EX; cbn [obind];
    [|apply agrees_panic in X; rewrite X; exact I|apply agrees_nofuel in X; rewrite X; exact I].
  apply agrees_ret in X. destruct X as (yy & Ey & h2 & s2 & v2 & -> & Hs & _ & T). cbn [fst snd] in Hs. rewrite Ey. clear Ey. subst wr.
  set (c2 := set_nth cs a (vstate s2)). set (w2 := set_obj w ir (xv_env y, xv_ty y, v2)).
  assert (C2a : nth_error c2 a = Some (vstate s2)) by (apply get_set; exact La).
  assert (C2p : nth_error c2 p = nth_error cs p) by (apply get_other; congruence). rewrite Hp in C2p.
  assert (C2 : forall k, k <> a -> nth_error c2 k = nth_error cs k) by (intros k K; apply get_other; congruence).
  clearbody c2.
  assert (D2 : differs_at anywhere h h2) by (eapply differs_weaken; [apply T|]; intros; exact I).
  assert (LEN2 : (4 <= glen (h_buf s2))%nat).
  { destruct (xdr_shape _ _ _ _ _ _ _ EX) as [_ K]. cbn [habs x_reader x_buf] in K. rewrite Hrd in K. destruct K as [ww K].
    rewrite <- (gread_len h2) by apply T. rewrite K, app_length, gread_len by exact Vb. lia. }
  gor. rewrite (call_error grow N C rw hs ext M _ _ _ _ _ s2 C2a). change (Error (habs h2 s2)) with (h_err s2).
  destruct (h_err s2) as [e|] eqn:E2.
  { destruct (verr_some e) as (f & l & Ev). rewrite Ev. gor. step. cbn [finish obind]. gor. rewrite <- Ev.
    exists h2, c2, w2. repeat (split; [reflexivity|]). split; [exact D2|]. auto. }
  change (verr None) with WNil. gor. rewrite after_next.
  destruct (write_text n h2 c2 w2 top p a s2 (WObj ir) vl vr vq va vb C2p C2a (proj1 (proj2 T)) LEN2) as (h3 & D3 & Z).
  erewrite scont_eq in Z by (cbv [skipn fbody server_serverConn_handleReqErr]; reflexivity). unfold rest.
  rewrite Z. exists h3, c2, (set_conn w2 (fst (write_reply (w_conn w) (gread h2 (h_buf s2))))). repeat (split; [reflexivity|]).
  split; [eapply differs_trans; eassumption|]. auto.
Qed.

Lemma send_text n h cs w top p r g v e rd vq va vb :
  nth_error cs p = Some (gsconn top) -> nth_error cs r = Some g -> (e = WNil \/ exists f l, e = WErr f l) -> gtype g = gtype zmsg -> hslices (to_h g) = [] -> p <> r ->
  match rd with
  | None => v = WNil
  | Some y => exists i hv, v = WObj i /\ nth_error (w_objs w) i = Some (xv_env y, xv_ty y, hv) /\ valid_in h hv /\ deref h hv = xv_val y
  end ->
  agrees (fun x y => exists h' cs' w', y = (mkMem h' cs' w', [vserr (snd x)]) /\ w_conn w' = fst x /\ w_user w' = w_user w /\ w_log w' = w_log w /\
      differs_at anywhere h h' /\ (forall i, i <> r -> (i < List.length cs)%nat -> nth_error cs' i = nth_error cs i))
    (send_reply (w_conn w) (deref h (to_h g)) rd)
    (scont n 12 (mkMem h cs w) [("resdata", v); ("res", WRef r); ("err", e); ("req", vq); ("rd", va); ("sc", WPtr p); ("buf", vb)]).
Proof.
  intros Hp Hr He Tg Sg Npr Hrd. match goal with |- agrees ?R _ _ => set (R0 := R) end.
  assert (Lr : (r < List.length cs)%nat) by (apply nth_error_Some; congruence).
  assert (Lp : (p < List.length cs)%nat) by (apply nth_error_Some; congruence).
  unfold scont. resume_srv. step. step. rewrite (call_writer grow N C rw hs ext M). gor.
  change (Some (mkSl (List.length h) 0 4 4)) with (arr h 4). set (s0 := mkHst None false (arr h 4)). set (h1 := h ++ [zeros 4]).
  assert (V0 : gvalid h1 (h_buf s0)) by (apply arr_valid; reflexivity).
  assert (A0 : habs h1 s0 = MakeWriter (zeros 4)) by (unfold habs, s0, MakeWriter; cbn [h_err h_reader h_buf]; unfold h1; rewrite arr_read by reflexivity; reflexivity).
  assert (D1 : differs_at none h h1) by apply differs_new.
  assert (R00 : h_reader s0 = false) by reflexivity.
  assert (O0 : forall b i, ~ owned s0 b i) by (intros b i [_ [_ K]]; cbn in K; lia).
  set (a := List.length cs). set (c1 := cs ++ [vstate s0]).
  assert (L1 : List.length c1 = Datatypes.S a) by (unfold c1, a; lens).
  assert (C1a : nth_error c1 a = Some (vstate s0)) by (unfold c1, a; look; reflexivity).
  assert (C1r : nth_error c1 r = Some g) by (unfold c1, a; look; reflexivity).
  assert (C1p : nth_error c1 p = Some (gsconn top)) by (unfold c1, a; look; reflexivity).
  assert (C1 : forall k, (k < a)%nat -> nth_error c1 k = nth_error cs k) by (intros k K; unfold c1; look; reflexivity).
  assert (La : List.length cs = a) by reflexivity. clearbody c1 a.
  assert (Lh : (List.length h <= List.length h1)%nat) by apply D1.
  assert (Sf : safe h1 s0 (to_h g)) by (unfold safe; rewrite Sg; constructor).
  pose proof (m_msg _ _ _ _ _ _ M h1 c1 w a r s0 g C1a C1r Tg V0 Sf) as X. rewrite A0 in X.
  rewrite (deref_differs h h1 (to_h g) D1) in X by (unfold valid_in; rewrite Sg; constructor).
  clearbody s0 h1.
  destruct (msg_inv g Tg) as (xid' & mt' & rv & pg & vs & pc & g1f & g1b & g2f & g2b & st & f3 & b3 & ast & bs & lo & hi & rst & lo2 & hi2 & au & Eg).
  rewrite Eg in C1r. unfold gmsg in C1r.
  step. rewrite run_ext' by reflexivity. unfold send_reply.
  destruct (xdr N rpc_env msg_t (MakeWriter (zeros 4)) (deref h (to_h g))) as [[wr vq0]| |] eqn:EX; cbn [obind];
    [|apply agrees_panic in X; rewrite X; exact I|apply agrees_nofuel in X; rewrite X; exact I].
  apply agrees_ret in X. destruct X as (y & Ey & h2 & s2 & g2 & -> & Hs & _ & Tg2 & T). cbn [fst snd] in Hs. rewrite Ey. clear Ey. subst wr.
  assert (D2 : differs_at none h h2).
  { eapply differs_trans; [exact D1|]. destruct T as (_ & _ & D & _). eapply differs_weaken; [exact D|]. intros b i _ [K|[]]. exact (O0 b i K). }
  assert (O2 : forall b i, (b < List.length h)%nat -> ~ owned s2 b i).
  { intros b i Hb K. destruct T as (_ & _ & _ & D & _). exact (O0 b i (D b i ltac:(lia) K)). }
  set (c2 := set_nth (set_nth c1 a (vstate s2)) r g2).
  assert (L2 : List.length c2 = Datatypes.S a) by (unfold c2; lens).
  assert (C2a : nth_error c2 a = Some (vstate s2)) by (unfold c2; look; reflexivity).
  assert (C2p : nth_error c2 p = Some (gsconn top)) by (unfold c2; look; reflexivity).
  assert (C2 : forall k, k <> r -> (k < a)%nat -> nth_error c2 k = nth_error cs k) by (intros k K1 K2; unfold c2; look; apply C1; assumption).
  clearbody c2. clear C1 C1r C1p C1a L1 c1.
  assert (LEN2 : (4 <= glen (h_buf s2))%nat).
  { destruct (xdr_shape _ _ _ _ _ _ _ EX) as [_ K]. cbn in K. destruct K as [ww K]. rewrite <- (gread_len h2) by apply T. rewrite K. cbn. lia. }
  assert (RD2 : h_reader s2 = false) by (rewrite (proj1 T); exact R00).
  assert (Hrd2 : match rd with
    | None => v = WNil
    | Some y => exists i hv, v = WObj i /\ nth_error (w_objs w) i = Some (xv_env y, xv_ty y, hv) /\ safe h2 s2 hv /\ deref h2 hv = xv_val y end).
  { destruct rd as [y|]; [|exact Hrd]. destruct Hrd as (ir & hv & -> & J1 & J2 & J3). exists ir, hv. split; [reflexivity|]. split; [exact J1|].
    split; [|rewrite <- J3; apply deref_differs; assumption]. pose proof (valid_differs _ _ _ _ D2 J2) as J4.
    unfold safe. apply Forall_forall. intros sl Hsl. unfold valid_in in J2, J4. rewrite Forall_forall in J2, J4.
    split; [apply J4; exact Hsl|]. intros Hw i _ K. apply (O2 (sl_blk sl) i); [apply (J2 sl Hsl)|split; assumption]. }
  pose proof (data_text n h2 c2 w top p a s2 v rd (WArr (List.length h) 4) (WRef r) vq va vb C2p C2a (proj1 (proj2 T)) LEN2 RD2 ltac:(lia) Hrd2) as Z.
  erewrite scont_eq in Z by (cbv [skipn fbody server_serverConn_handleReqErr]; reflexivity).
  gor. step. rewrite (call_error grow N C rw hs ext M _ _ _ _ _ s2 C2a).
  assert (FIN : forall x y, (exists h' cs' w', y = (mkMem h' cs' w', [vserr (snd x)]) /\ w_conn w' = fst x /\ w_user w' = w_user w /\ w_log w' = w_log w /\
      differs_at anywhere h2 h' /\ (forall i, i <> a -> (i < List.length c2)%nat -> nth_error cs' i = nth_error c2 i)) -> R0 x y).
  { intros x y (h' & cs' & w' & -> & J1 & J2 & J3 & J4 & J5). exists h', cs', w'. split; [reflexivity|]. split; [exact J1|]. split; [exact J2|]. split; [exact J3|].
    split; [eapply differs_trans; [eapply differs_weaken; [exact D2|]; intros; exact I|exact J4]|].
    intros i K1 K2. rewrite J5 by lia. apply C2; [exact K1|lia]. }
  assert (VE : verr (h_err s2) = WNil \/ exists f l, verr (h_err s2) = WErr f l) by (destruct (h_err s2) as [e2|]; [right; apply verr_some|left; reflexivity]).
  assert (VL : forall x, (x = WNil \/ exists f l, x = WErr f l) -> like x (verr (h_err s2)) = verr (h_err s2)).
  { intros x [->|(? & ? & ->)]; destruct VE as [->|(? & ? & ->)]; reflexivity. }
  assert (VM : many (verr (h_err s2)) = [verr (h_err s2)]) by (destruct VE as [->|(? & ? & ->)]; reflexivity).
  set (ve := verr (h_err s2)) in *. clearbody ve.
  destruct He as [->|(f0 & l0 & ->)]; gor; rewrite VM; gor; rewrite VL by eauto; gor; rewrite after_next; unfold rest; exact (agrees_impl _ _ _ _ FIN Z).
Qed.

Lemma f_handleReqErr : find_fun rpc_pkg "serverConn.handleReqErr" =
  Some ([("sc", EUn "*" (EId "serverConn")); ("buf", TSlice (EId "byte"))], [EId "error"], fbody server_serverConn_handleReqErr).
Proof. reflexivity. Qed.
Lemma handleReqErr_eq (srv : server U) (s : S) (u : U) buf : handleReqErr N C srv s u buf =
  '(rd, req) <- xdr N rpc_env msg_t (MakeReader buf) zero_msg ;;
  match Error rd with
  | Some e => Ret (s, u, Some (SXdr e))
  | None =>
      if negb (get_int ["Body"; "Mtype"] req =? CALL) then Ret (s, u, Some (SNotCall (get_int ["Body"; "Mtype"] req)))
      else 'd <- dispatch N srv u rd req ;; match d with (u', res, resdata) => '(s', e) <- send_reply s res resdata ;; Ret (s', u', e) end
  end.
Proof.
  unfold handleReqErr, make_reply. destruct (xdr N rpc_env msg_t (MakeReader buf) zero_msg) as [[rd req]| |]; cbn [obind]; [|reflexivity..].
  destruct (Error rd); [reflexivity|]. destruct (negb _); [reflexivity|]. destruct (dispatch N srv u rd req) as [[[u' res] resdata]| |]; cbn [obind]; [|reflexivity..].
  unfold send_reply. destruct (xdr N rpc_env msg_t (MakeWriter (zeros 4)) res) as [[wr ?]| |]; cbn [obind]; [|reflexivity..].
  unfold data_reply. destruct (Error wr); [reflexivity|].
  destruct (match resdata with Some r => _ | None => _ end) as [wr'| |]; cbn [obind]; [|reflexivity..]. destruct (Error wr'); [reflexivity|].
  cbn [obind]. unfold write_reply. destruct (c_write _ _ _); reflexivity.
Qed.
Lemma handleReqErr_text n h cs w own top srv p o :
  nth_error cs p = Some (gsconn top) -> srv_at cs own top srv -> gvalid h o ->
  agrees (fun x y => let '(s', u', e) := x in exists h' cs' w', y = (mkMem h' cs' w', [vserr e]) /\ w_conn w' = s' /\ w_user w' = u' /\ w_log w' = w_log w /\
      differs_at anywhere h h' /\ (forall i, (i < List.length cs)%nat -> nth_error cs' i = nth_error cs i))
    (handleReqErr N C srv (w_conn w) (w_user w) (gread h o))
    (Run (Datatypes.S (Datatypes.S n)) "serverConn.handleReqErr" [WPtr p; WSl o] (mkMem h cs w)).
Proof.
  intros Hp (m0 & A & B & Hs) Vo. match goal with |- agrees ?R _ _ => set (R0 := R) end.
  set (own1 := fun q => if Nat.ltb q (List.length cs) then own q else None).
  assert (Lp : (p < List.length cs)%nat) by (apply nth_error_Some; congruence).
  unfold rpc_run. enter f_handleReqErr. unfold fbody, server_serverConn_handleReqErr, SrcSrv.gsconn in *.
  step. rewrite (call_reader grow N C rw hs ext M). gor. step. rewrite handleReqErr_eq.
  set (s0 := mkHst None true o). rewrite app_length. set (a := List.length cs). cbn [List.length]. set (q := (a + 1)%nat).
  match goal with |- context [(cs ++ [vstate s0]) ++ [?z]] => change z with zmsg end.
  set (c2 := (cs ++ [vstate s0]) ++ [zmsg]).
  assert (L2 : List.length c2 = Datatypes.S q) by (unfold c2, q, a; lens).
  assert (C2a : nth_error c2 a = Some (vstate s0)) by (unfold c2, a; look; reflexivity).
  assert (C2q : nth_error c2 q = Some zmsg) by (unfold c2, q, a; look; reflexivity).
  assert (C2 : forall k, (k < a)%nat -> nth_error c2 k = nth_error cs k) by (intros k K; unfold c2; look; reflexivity).
  assert (La : List.length cs = a) by reflexivity. assert (Lq : q = Datatypes.S a) by (unfold q; lia).
  clearbody c2 q.
  assert (V0 : gvalid h (h_buf s0)) by exact Vo.
  assert (Sf : safe h s0 (to_h zmsg)) by constructor.
  pose proof (m_msg _ _ _ _ _ _ M h c2 w a q s0 zmsg C2a C2q eq_refl V0 Sf) as X.
  change (habs h s0) with (MakeReader (gread h o)) in X. rewrite zmsg_zero in X.
  unfold zmsg, gmsg in C2q. step. rewrite run_ext' by reflexivity.
  destruct (xdr N rpc_env msg_t (MakeReader (gread h o)) zero_msg) as [[rd req]| |]; cbn [obind];
    [|apply agrees_panic in X; rewrite X; exact I|apply agrees_nofuel in X; rewrite X; exact I].
  apply agrees_ret in X. destruct X as (y & Ey & h1 & s1 & g1 & -> & Hs1 & Hg1 & Tg1 & T). cbn [fst snd] in Hs1, Hg1. rewrite Ey. clear Ey. subst rd req.
  destruct (msg_inv g1 Tg1) as (xid & mt & rv & pg & vs & pc & f1 & b1 & f2 & b2 & st & f3 & b3 & ast & bs & lo & hi & rst & lo2 & hi2 & au & Eg1).
  set (c3 := set_nth (set_nth c2 a (vstate s1)) q g1).
  assert (L3 : List.length c3 = Datatypes.S q) by (unfold c3; lens).
  assert (C3a : nth_error c3 a = Some (vstate s1)) by (unfold c3; look; reflexivity).
  assert (C3q : nth_error c3 q = Some g1) by (unfold c3; look; reflexivity).
  assert (C3 : forall k, (k < a)%nat -> nth_error c3 k = nth_error cs k) by (intros k K; unfold c3; look; apply C2; assumption).
  clearbody c3. clear C2 C2q C2a L2 c2 Tg1. rewrite Eg1 in *.
  assert (D1 : differs_at none h h1).
  { destruct T as (_ & _ & D & _). eapply differs_weaken; [exact D|]. intros ? ? _ [[F _]|[]]. discriminate F. }
  gor. step. rewrite (call_error grow N C rw hs ext M _ _ _ _ _ s1 C3a). change (Error (habs h1 s1)) with (h_err s1).
  destruct (h_err s1) as [e|] eqn:E1.
  { destruct (verr_some e) as (f & l & Ev). rewrite Ev. gor. step. step. cbn [finish obind]. gor. rewrite <- Ev.
    exists h1, c3, w. repeat (split; [reflexivity|]). split; [eapply differs_weaken; [exact D1|]; intros; exact I|]. exact C3. }
  change (verr None) with WNil. gor. step. unfold gmsg in C3q. step.
  match goal with |- context [get_int ["Body"; "Mtype"] ?x] => change (get_int ["Body"; "Mtype"] x) with mt end.
  change CALL with 0. destruct (mt =? 0) eqn:Em; cbn [negb].
  2:{ gor. step. cbn [finish obind]. gor. exists h1, c3, w. repeat (split; [reflexivity|]). split; [eapply differs_weaken; [exact D1|]; intros; exact I|]. exact C3. }
  apply Z.eqb_eq in Em. subst mt. gor. step. step. step. step. rewrite L3.
  match goal with |- context [set_nth (c3 ++ [?z]) ?rr ?v] => set (c4 := set_nth (c3 ++ [z]) rr v); set (r := rr);
    assert (C4r : nth_error c4 r = Some v) by (unfold c4, r; look; reflexivity) end.
  assert (Lr : r = Datatypes.S q) by reflexivity.
  assert (L4 : List.length c4 = Datatypes.S r) by (unfold c4, r; lens).
  assert (C4 : forall k, k <> r -> (k < r)%nat -> nth_error c4 k = nth_error c3 k) by (intros k K1 K2; unfold c4; look; reflexivity).
  clearbody c4 r. rewrite after_next. unfold rest. clear rest. rewrite body_cons by reflexivity.
  assert (C4p : nth_error c4 p = Some (gsconn top)) by (rewrite C4, C3 by lia; exact Hp).
  assert (C4q : nth_error c4 q = nth_error c3 q) by (apply C4; lia). rewrite C3q in C4q.
  assert (C4a : nth_error c4 a = Some (vstate s1)) by (rewrite C4 by lia; exact C3a).
  assert (Hs4 : srv_at c4 own1 top srv).
  { exists m0, A, B. eapply srv_rep_frame; [| |exact Hs].
    - intros k _ K. rewrite C4, C3 by lia. reflexivity.
    - intros k _ K. unfold own1. rewrite (proj2 (Nat.ltb_lt _ _) K). reflexivity. }
  assert (Or : own1 r = None) by (unfold own1; rewrite (proj2 (Nat.ltb_ge _ _)) by lia; reflexivity).
  pose proof (dispatch_text grow N C rw hs ext M n h1 c4 w own1 top srv p r q a s1 (WSl o) xid rv pg vs pc (gauth f1 b1) (gauth f2 b2)
    (grbody st (gareply (gauth f3 b3) ast bs (gmismatch lo hi)) (grreply rst (gmismatch lo2 hi2) au)) C4p Hs4 C4r C4q C4a (proj1 (proj2 T)) ltac:(lia) Or) as Z.
  cbv zeta in Z. unfold st10 in Z. cbv [nth fbody server_serverConn_handleReqErr] in Z.
  match type of Z with agrees _ _ ?X => set (E := X) in Z; match goal with |- context [obind (obind ?Y _) _] => change Y with E end end. clearbody E.
  destruct (dispatch N srv (w_user w) _ _) as [[[u res] rdat]| |]; cbn [obind];
    [|apply agrees_panic in Z; rewrite Z; exact I|apply agrees_nofuel in Z; rewrite Z; exact I].
  apply agrees_ret in Z. destruct Z as (y & -> & h2 & c5 & w5 & v & e & g & c & -> & Hc & He & Z1 & Z2 & Z3 & Z4 & Z5 & Z6 & Z7 & Z8 & Z9 & Z10).
  cbn [fst snd obind] in *.
  assert (C5p : nth_error c5 p = Some (gsconn top)) by (rewrite Z5 by lia; exact C4p).
  pose proof (send_text n h2 c5 w5 top p r g v e rdat (WRef q) (WPtr a) (WSl o) C5p Z6 He Z7 Z8 ltac:(lia) Z10) as Y. rewrite Z2, Z9 in Y.
  erewrite scont_eq in Y by (cbv [skipn fbody server_serverConn_handleReqErr]; reflexivity).
  match type of Y with agrees _ _ ?X => set (E := X) in Y; match goal with |- agrees _ _ ?G => assert (EE : G = E) by (destruct Hc as [->| ->]; reflexivity) end end.
  rewrite EE. clearbody E.
  destruct (send_reply (w_conn w) res rdat) as [[s' es]| |]; cbn [obind];
    [|apply agrees_panic in Y; rewrite Y; exact I|apply agrees_nofuel in Y; rewrite Y; exact I].
  apply agrees_ret in Y. destruct Y as (y & -> & h3 & c6 & w6 & -> & Y1 & Y2 & Y3 & Y4 & Y5). cbn [fst snd] in *.
  assert (L5 : (r < List.length c5)%nat) by (apply nth_error_Some; congruence).
  exists h3, c6, w6. split; [reflexivity|]. split; [exact Y1|]. split; [congruence|]. split; [congruence|].
  split; [eapply differs_trans; [eapply differs_weaken; [exact D1|]; intros; exact I|eapply differs_trans; eassumption]|].
  intros k K. rewrite Y5, Z5, C4 by lia. apply C3. lia.
Qed.
End Server.
