(** /repo/rfc1057/client.go, as its text says, computes what Client.v says: the functions. *)
From Verif Require Import GoLex SrcAst SrcProg.
From Verif Require Import Bytes XdrLib Types Interp Heap HeapP HeapX RpcTypes Io Client ClientP Server SrcSem SrcLib SrcLibB SrcLibC SrcRpc SrcMsg SrcCli.
Open Scope string_scope.
Open Scope Z_scope.
Open Scope list_scope.

Local Strategy expand [obind].
Local Strategy opaque [run].

Section Client.
Context {S U : Type}.
Variable grow : nat -> nat -> nat.
Hypothesis grow_ok : grows grow.
Variable N : nat.
Variable C : conn S.
Variable rw : nat.
Variable hs : nat -> handler U.
Variable ext : string -> list gv -> mem (world S U) -> outcome (mem (world S U) * list gv).
Hypothesis M : meets grow N C rw hs ext.
Notation Run := (rpc_run grow ext).
Notation RunX k := (run grow rpc_pkgs rpc_consts rpc_structs rpc_pkg ext (Datatypes.S k)).
Notation gclient := (gclient rw).
Notation cont := (cont grow ext).

(** client.go:53-108 *)
Definition call_io (c : client) (s : S) (wbuf : list byte) (resp : xdrable) : outcome (client * S * val * option cerr) :=
  let '(s1, e1) := c_write C s (put_u32 (rec_mark (zlen wbuf)) ++ wbuf) in
  match e1 with
  | Some e => Ret (c, s1, xv_val resp, Some (CIo e))
  | None =>
      '(s2, hdr, e2) <- read_full N C s1 4 [] ;;
      match e2 with
      | Some e => Ret (c, s2, xv_val resp, Some (CIo e))
      | None =>
          let hlen := get_u32 hdr in
          if Z.land hlen (2 ^ 31) =? 0
          then Ret (c, s2, xv_val resp, Some CFragments)
          else
            '(s3, buf, e3) <- read_full N C s2 (Z.to_nat (Z.land hlen 2147483647)) [] ;;
            match e3 with
            | Some e => Ret (c, s3, xv_val resp, Some (CIo e))
            | None => '(v, e) <- call_reply N (cl_xid c) buf resp ;; Ret (c, s3, v, e)
            end
      end
  end.
Lemma mark_u32 z : to_u32 (Z.lor 2147483648 (to_u32 z)) = rec_mark z.
Proof.
  change (to_u32 (rec_mark z) = rec_mark z). rewrite ClientP.rec_mark_val. unfold to_u32. apply Z.mod_small.
  pose proof (Z.mod_pos_bound z (2 ^ 31) ltac:(lia)). lia.
Qed.
Lemma land_u32 x m : 0 <= x < 2 ^ 32 -> to_u32 (Z.land x m) = Z.land x m.
Proof.
  intros H. unfold to_u32. rewrite <- (Z.land_ones _ 32) by lia. rewrite <- Z.land_assoc, (Z.land_comm m), Z.land_assoc, Z.land_ones by lia.
  rewrite Z.mod_small by exact H. reflexivity.
Qed.
Lemma differs_fresh P h h1 h2 : differs_at none h h1 -> differs_at P h1 h2 -> (forall b i, (b < List.length h)%nat -> ~ P b i) -> differs_at none h h2.
Proof.
  intros [L D] [L' D'] H. split; [lia|]. intros b Hb. destruct (D b Hb) as [A B]. destruct (D' b ltac:(lia)) as [A' B']. split; [lia|].
  intros i K. rewrite B', B; auto.
Qed.
Lemma cont_eq n k m en b : skipn k (fbody client_Client_Call) = b ->
  cont n k m en = obind (exec_body grow rpc_pkgs rpc_consts rpc_structs (RunX n) (Datatypes.S n) None b m en) (finish [EId "error"]).
Proof. intros <-. reflexivity. Qed.
Lemma agrees_impl {A B} (R R' : A -> B -> Prop) a b : (forall x y, R x y -> R' x y) -> agrees R a b -> agrees R' a b.
Proof. intros H. destruct a, b; cbn; auto. Qed.
Lemma io_text n h cs w s c a q p vproc vc vv va ir mt cb rb Er tr vr :
  nth_error cs a = Some (vstate s) -> nth_error cs p = Some (gclient c) -> nth_error cs q = Some (gmsg (cl_xid c) mt cb rb) ->
  nth_error (w_objs w) ir = Some (Er, tr, vr) -> gvalid h (h_buf s) -> valid_in h vr ->
  agrees (fun x r => let '(c', s', v', e) := x in exists h' cs' w' vr', r = (mkMem h' cs' w', [vcerr e]) /\ c' = c /\ w_conn w' = s' /\
      nth_error (w_objs w') ir = Some (Er, tr, vr') /\ deref h' vr' = v' /\ differs_at none h h' /\
      forall k, (k < List.length cs)%nat -> nth_error cs' k = nth_error cs k)
    (call_io c (w_conn w) (gread h (h_buf s)) (mkXv Er tr (deref h vr)))
    (cont n 17 (mkMem h cs w) [("err", WNil); ("wr", WPtr a); ("req", WRef q); ("c", WPtr p);
       ("proc", vproc); ("cred", vc); ("verf", vv); ("args", va); ("resp", WObj ir)]).
Proof.
  intros Ca Cp Cq Hr Vb Vr. unfold SrcCli.gclient in Cp.
  match goal with |- agrees ?R _ _ => set (R0 := R) end. unfold SrcCli.cont. resume.
  step. rewrite (call_buf grow N C rw hs ext M _ _ _ _ _ s Ca). gor. step. step.
  change (Some (mkSl (List.length h) 0 4 4)) with (arr h 4). rewrite arr_store by reflexivity.
  rewrite mark_u32.
  assert (HZ : Z.of_nat (glen (h_buf s)) = zlen (gread h (h_buf s))) by (unfold zlen; rewrite gread_len by exact Vb; reflexivity).
  rewrite HZ. clear HZ. unfold call_io. set (wb := gread h (h_buf s)). set (mk := put_u32 (rec_mark (zlen wb))).
  assert (Lm : List.length mk = 4%nat) by reflexivity. clearbody mk.
  assert (Va : gvalid (h ++ [mk]) (arr h 4)) by (apply arr_valid; exact Lm).
  assert (Ra : gread (h ++ [mk]) (arr h 4) = mk) by (apply arr_read; exact Lm).
  assert (Rw : gread (h ++ [mk]) (h_buf s) = wb) by (apply gread_app; exact Vb).
  assert (D1 : differs_at none h (h ++ [mk])) by apply differs_new.
  set (h1 := h ++ [mk]) in *. assert (Lh : (List.length h < List.length h1)%nat) by (unfold h1; lens). clearbody h1.
  step. change (Some (mkSl (List.length h) 0 4 4)) with (arr h 4). rewrite Rw.
  pose proof (gappend_spec grow grow_ok h1 (arr h 4) wb Va) as G. destruct (gappend grow h1 (arr h 4) wb) as [h2 o2]. cbn [fst snd].
  destruct G as (G1 & G2 & G3 & _). rewrite Ra in G1.
  assert (D2 : differs_at none h1 h2) by (eapply differs_weaken; [exact G3|]; intros b i _ [_ K]; cbn in K; lia).
  clear G3. rewrite run_ext' by reflexivity. destruct (m_write _ _ _ _ _ _ M h2 cs w o2 G2) as [k0 X]. rewrite X, G1. clear X.
  destruct (c_write C (w_conn w) (mk ++ wb)) as [t1 e1]. cbn [fst snd].
  assert (FIN : forall h3 w3 e, differs_at none h h3 -> w_objs w3 = w_objs w -> R0 (c, w_conn w3, deref h vr, e) (mkMem h3 cs w3, [vcerr e])).
  { intros h3 w3 e D3 E3. exists h3, cs, w3, vr. split; [reflexivity|]. split; [reflexivity|]. split; [reflexivity|]. split; [rewrite E3; exact Hr|].
    split; [apply deref_differs; assumption|]. auto. }
  assert (D02 : differs_at none h h2) by (eapply differs_trans; eassumption).
  destruct e1 as [e|].
  { destruct (vio_some e) as (f & l & Ev). rewrite Ev. gor. step. step. cbn [finish]. gor. rewrite <- Ev.
    exact (FIN h2 (set_conn w t1) (Some (CIo e)) D02 eq_refl). }
  change (vio None) with WNil. gor. step.
  (* the header of the reply *)
  step. change (Some (mkSl (List.length h) 0 4 4)) with (arr h 4). rewrite run_ext' by reflexivity.
  assert (Va2 : gvalid h2 (arr h 4)) by (exact (gvalid_differs _ _ _ _ D2 Va)).
  pose proof (m_read _ _ _ _ _ _ M h2 cs (set_conn w t1) (arr h 4) Va2) as X. change (glen (arr h 4)) with 4%nat in X. cbn [w_conn set_conn] in X.
  destruct (read_full N C t1 4 []) as [[[t2 hd] e2]| |] eqn:E2; cbn [obind];
    [|apply agrees_panic in X; rewrite X; exact I|apply agrees_nofuel in X; rewrite X; exact I].
  apply agrees_ret in X. destruct X as (y & Ey & h3 & k1 & -> & D3 & X). cbn [fst snd] in *. rewrite Ey. clear Ey.
  assert (D3' : differs_at none h h3) by (eapply differs_fresh; [exact D02|exact D3|]; intros b i Hb [K _]; cbn in K; lia).
  destruct e2 as [e|].
  { destruct (vio_some e) as (f & l & Ev). rewrite Ev. gor. step. step. cbn [finish]. gor. rewrite <- Ev.
    exact (FIN h3 (set_conn w t2) (Some (CIo e)) D3' eq_refl). }
  change (set_conn (set_conn w t1) t2) with (set_conn w t2).
  specialize (X eq_refl). destruct (read_full_len _ _ _ _ _ _ _ E2) as (hd' & -> & Lhd). cbn [app] in *.
  change (vio None) with WNil. gor. step. step. change (Some (mkSl (List.length h) 0 4 4)) with (arr h 4). rewrite X, (firstn_len 4 hd' Lhd).
  step. assert (BU : 0 <= get_u32 hd' < 2 ^ 32) by apply get_u32_bound.
  rewrite land_u32 by exact BU. change (2 ^ 31) with 2147483648. destruct (Z.land (get_u32 hd') 2147483648 =? 0); gor.
  { step. cbn [finish]. gor. exact (FIN h3 (set_conn w t2) (Some CFragments) D3' eq_refl). }
  step. rewrite land_u32 by exact BU. set (k := Z.land (get_u32 hd') 2147483647).
  assert (Bk : 0 <= k) by (apply Z.land_nonneg; lia). rewrite (proj2 (Z.ltb_ge k 0)) by lia. gor.
  replace (List.length (zeros (Z.to_nat k))) with (Z.to_nat k) by (symmetry; apply repeat_length).
  set (kn := Z.to_nat k). change (Some (mkSl (List.length h3) 0 kn kn)) with (arr h3 kn).
  set (h4 := h3 ++ [zeros kn]). assert (V4 : gvalid h4 (arr h3 kn)) by (apply arr_valid; apply repeat_length).
  assert (D4 : differs_at none h h4) by (eapply differs_trans; [exact D3'|apply differs_new]).
  step. rewrite run_ext' by reflexivity.
  pose proof (m_read _ _ _ _ _ _ M h4 cs (set_conn w t2) (arr h3 kn) V4) as Y. change (glen (arr h3 kn)) with kn in Y. cbn [w_conn set_conn] in Y.
  destruct (read_full N C t2 kn []) as [[[t3 bf] e3]| |] eqn:E3; cbn [obind];
    [|apply agrees_panic in Y; rewrite Y; exact I|apply agrees_nofuel in Y; rewrite Y; exact I].
  apply agrees_ret in Y. destruct Y as (y & Ey & h5 & k2 & -> & D5 & Y). cbn [fst snd] in *. rewrite Ey. clear Ey.
  assert (D5' : differs_at none h h5) by (eapply differs_fresh; [exact D4|exact D5|]; intros b i Hb [K _]; cbn in K; destruct D3'; lia).
  destruct e3 as [e|].
  { destruct (vio_some e) as (f & l & Ev). rewrite Ev. gor. step. step. cbn [finish]. gor. rewrite <- Ev.
    exact (FIN h5 (set_conn w t3) (Some (CIo e)) D5' eq_refl). }
  change (set_conn (set_conn w t2) t3) with (set_conn w t3).
  specialize (Y eq_refl). change (vio None) with WNil. gor. step.
  rewrite after_next.
  assert (LEN : List.length bf = kn) by (destruct (read_full_len _ _ _ _ _ _ _ E3) as (? & -> & K); exact K).
  match goal with |- context [exec_body _ _ _ _ _ _ None _ _ (_ :: ("hlen", ?vh) :: _)] =>
    pose proof (reply_text grow N C rw hs ext M n h5 cs (set_conn w t3) (arr h3 kn) vh (WArr (List.length h) 4) (WSl (h_buf s)) (WPtr a) q (WPtr p)
      vproc vc vv va ir (cl_xid c) mt cb rb Er tr vr Cq Hr (gvalid_differs _ _ _ _ D5 V4) (valid_differs _ _ _ _ D5' Vr)) as Z end.
  rewrite Y, (deref_differs h h5 vr D5' Vr) in Z.
  match type of Z with agrees _ _ ?X => match goal with |- agrees R0 ?L _ => change (agrees R0 L X) end end.
  destruct (call_reply N (cl_xid c) bf (mkXv Er tr (deref h vr))) as [[v e]| |]; cbn [obind];
    [|apply agrees_panic in Z; rewrite Z; exact I|apply agrees_nofuel in Z; rewrite Z; exact I].
  apply agrees_ret in Z. destruct Z as (y & Ey & h6 & c6 & w6 & v6 & -> & Z1 & Z2 & Z3 & Z4 & Z5). rewrite Ey.
  exists h6, c6, w6, v6. split; [reflexivity|]. split; [reflexivity|]. split; [exact Z1|]. split; [exact Z2|]. split; [exact Z3|].
  split; [eapply differs_trans; eassumption|exact Z5].
Qed.

Lemma f_Call : find_fun rpc_pkg "Client.Call" =
  Some ([("c", EUn "*" (EId "Client")); ("proc", EId "uint32"); ("cred", EId "Opaque_auth"); ("verf", EId "Opaque_auth");
         ("args", ESel (EId "xdr") "Xdrable"); ("resp", ESel (EId "xdr") "Xdrable")], [EId "error"], fbody client_Client_Call).
Proof. reflexivity. Qed.
Lemma writer_u32 s z : x_reader s = false -> snd (XdrU32 s z) = z.
Proof.
  intros H. unfold XdrU32. destruct (x_err s) eqn:E; [reflexivity|]. unfold Encoding, xdrRW. rewrite E, H. cbn [negb].
  unfold Decoding, set_buf. cbn [x_err x_reader]. rewrite ?E, H. reflexivity.
Qed.
Lemma msg_xid s x b s' v' : x_reader s = false -> xdr N rpc_env msg_t s (VStruct [("Xid", VInt x); ("Body", b)]) = Ret (s', v') ->
  get_int ["Xid"] v' = x.
Proof.
  intros Hs. destruct N as [|n1]; [discriminate|]. cbn [xdr msg_t]. change (lookup "Rpc_msg" rpc_env) with (Some (CStruct
    [("Xid", CU32); ("Body", CUnion "Mtype" (CIdent "Msg_type") [([0], Some ("Cbody", CIdent "Call_body")); ([1], Some ("Rbody", CIdent "Reply_body"))] None)])).
  destruct n1 as [|n1]; [discriminate|]. cbn [xdr xdr_fields on_field lookup String.eqb Ascii.eqb Bool.eqb obind].
  destruct n1 as [|n1]; [discriminate|]. cbn [xdr].
  set (B := fun (s0 : xst) (v : val) => match v with VStruct _ => _ | _ => Panic end).
  unfold on_field. change (lookup "Xid" [("Xid", VInt x); ("Body", b)]) with (Some (VInt x)). cbv iota beta.
  pose proof (writer_u32 s x Hs) as K. destruct (XdrU32 s x) as [s1 x1]. cbn in K. subst x1. cbn [obind].
  change (update "Xid" (VInt x) [("Xid", VInt x); ("Body", b)]) with [("Xid", VInt x); ("Body", b)].
  change (lookup "Body" [("Xid", VInt x); ("Body", b)]) with (Some b). cbv iota beta. 
  destruct (B s1 b) as [[s2 b2]| |]; cbn [obind]; [|discriminate..].
  intros K. injection K as _ <-. reflexivity.
Qed.

(** client.go:40-108 *)
Lemma req_text n h c1 w q p c proc cred verf vcred vverf ia ir Ea ta va Er tr vr g :
  nth_error c1 p = Some (gclient c) -> nth_error c1 q = Some g -> List.length c1 = Datatypes.S q -> p <> q -> (p < q)%nat ->
  nth_error (w_objs w) ia = Some (Ea, ta, va) -> nth_error (w_objs w) ir = Some (Er, tr, vr) -> ia <> ir ->
  deref h (to_h g) = req_msg c proc cred verf -> gtype g = gtype zmsg -> valid_in h (to_h g) -> (exists cb rb, g = gmsg (cl_xid c) 0 cb rb) ->
  valid_in h va -> valid_in h vr ->
  agrees (fun x r => let '(c', s', v', e) := x in exists h' cs' w' vr', r = (mkMem h' cs' w', [vcerr e]) /\ c' = c /\
      w_conn w' = s' /\ nth_error (w_objs w') ir = Some (Er, tr, vr') /\ deref h' vr' = v' /\
      differs_at none h h' /\ forall k, (k < q)%nat -> nth_error cs' k = nth_error c1 k)
    ('r <- call_request N c proc cred verf (mkXv Ea ta (deref h va)) ;;
     match r with
     | inl e => Ret (c, w_conn w, deref h vr, Some (CXdr e))
     | inr wbuf => call_io c (w_conn w) wbuf (mkXv Er tr (deref h vr))
     end)
    (cont n 10 (mkMem h c1 w) [("req", WRef q); ("c", WPtr p); ("proc", WNum "uint32" proc); ("cred", vcred); ("verf", vverf); ("args", WObj ia); ("resp", WObj ir)]).
Proof.
  intros C1p C1q L1 Npq Hpq Ha Hr Hne Hg Tg Sg Gg Va Vr. assert (Lq : (q < List.length c1)%nat) by lia.
  match goal with |- agrees ?R _ _ => set (R0 := R) end. unfold SrcCli.cont. resume. unfold SrcCli.gclient in *.
  step. rewrite (call_writer0 grow N C rw hs ext M). gor.
  set (c2 := c1 ++ [vstate (mkHst None false None)]). rewrite L1.
  set (a := Datatypes.S q).
  assert (L2 : List.length c2 = Datatypes.S a) by (unfold c2, a; lens).
  assert (C2a : nth_error c2 a = Some (vstate (mkHst None false None))) by (unfold c2, a; look; reflexivity).
  assert (C2q : nth_error c2 q = Some g) by (unfold c2; look; reflexivity).
  assert (C2p : nth_error c2 p = Some (gclient c)) by (unfold c2; look; reflexivity).
  assert (C2 : forall k, (k < q)%nat -> nth_error c2 k = nth_error c1 k) by (intros k K; unfold c2; look; reflexivity).
  assert (Haq : a = Datatypes.S q) by reflexivity.
  clearbody c2 a. clear C1q C1p.
  set (s0 := mkHst None false None) in *. assert (V0 : gvalid h (h_buf s0)) by exact I.
  assert (Sf : safe h s0 (to_h g)).
  { eapply Forall_impl; [|exact Sg]. intros sl Hsl. split; [exact Hsl|]. intros _ i _ K. exact K. }
  pose proof (m_msg _ _ _ _ _ _ M h c2 w a q s0 g C2a C2q Tg V0 Sf) as X. rewrite Hg in X.
  destruct Gg as (cb & rb & Eg). rewrite Eg in C2q. unfold gmsg in C2q.
  step. rewrite run_ext' by reflexivity. unfold call_request. change (habs h s0) with (MakeWriter []) in X.
  destruct (xdr N rpc_env msg_t (MakeWriter []) (req_msg _ _ _ _)) as [[wr vq]| |] eqn:EX; cbn [obind];
    [|apply agrees_panic in X; rewrite X; exact I|apply agrees_nofuel in X; rewrite X; exact I].
  apply agrees_ret in X. destruct X as (y & Ey & h1 & s1 & g1 & -> & Hs & Hg1 & Tg1 & T). cbn [fst snd] in Hs, Hg1. rewrite Ey. clear Ey.
  assert (XID : get_int ["Xid"] (deref h1 (to_h g1)) = cl_xid c).
  { rewrite Hg1. rewrite <- Hg, Eg in EX. eapply (msg_xid (MakeWriter []) (cl_xid c)); [reflexivity|]. exact EX. }
  destruct (msg_inv g1 (eq_trans Tg1 Tg)) as (xid' & mt' & rv & pg & vs & pc & g1f & g1b & g2f & g2b & st & f3 & b3 & ast & bs & lo & hi & rst & lo2 & hi2 & au & Eg1).
  assert (Eg1' : exists cb1 rb1, g1 = gmsg (cl_xid c) mt' cb1 rb1).
  { rewrite Eg1 in XID. cbn in XID. subst xid'. rewrite Eg1. eexists; eexists; reflexivity. }
  clear Eg1. destruct Eg1' as (cb1 & rb1 & Eg1). subst wr.
  set (c3 := set_nth (set_nth c2 a (vstate s1)) q g1).
  assert (L3 : List.length c3 = Datatypes.S a) by (unfold c3; lens).
  assert (C3a : nth_error c3 a = Some (vstate s1)) by (unfold c3; look; reflexivity).
  assert (C3q : nth_error c3 q = Some g1) by (unfold c3; look; reflexivity).
  assert (C3p : nth_error c3 p = Some (gclient c)) by (unfold c3; look; reflexivity).
  assert (C3 : forall k, (k < q)%nat -> nth_error c3 k = nth_error c1 k) by (intros k K; unfold c3; look; apply C2; assumption).
  clearbody c3. clear C2 C2q C2p C2a L2 c2.
  assert (D1 : differs_at none h h1).
  { destruct T as (_ & _ & D & _). eapply differs_weaken; [exact D|]. intros ? ? _ [[_ F]|[]]. exact F. }
  assert (O1 : forall b i, (b < List.length h)%nat -> ~ owned s1 b i).
  { intros b i Hb K. destruct T as (_ & _ & _ & D & _). destruct (D b i Hb K) as [_ F]. exact F. }
  gor. step. rewrite (call_error grow N C rw hs ext M _ _ _ _ _ s1 C3a). change (Error (habs h1 s1)) with (h_err s1).
  destruct (h_err s1) as [e|] eqn:E1.
  { destruct (verr_some e) as (f & l & Ev). rewrite Ev. gor. step. step. cbn [finish obind]. gor. rewrite <- Ev.
    exists h1, c3, w, vr. split; [reflexivity|]. split; [reflexivity|]. split; [reflexivity|]. split; [exact Hr|].
    split; [apply deref_differs; assumption|]. split; [exact D1|]. exact C3. }
  change (verr None) with WNil. gor. step.
  assert (Va1 : valid_in h1 va) by (eapply valid_differs; eassumption).
  assert (Sa : safe h1 s1 va).
  { unfold safe. apply Forall_forall. intros sl Hsl. unfold valid_in in Va, Va1. rewrite Forall_forall in Va, Va1.
    split; [apply Va1; exact Hsl|]. intros Hrd i _ K. apply (O1 (sl_blk sl) i); [apply (Va sl Hsl)|split; assumption]. }
  cbn [xv_env xv_ty xv_val]. step. rewrite run_ext' by reflexivity.
  pose proof (m_xdr _ _ _ _ _ _ M h1 c3 w a s1 ia Ea ta va C3a Ha (proj1 (proj2 T)) Sa) as X.
  rewrite (deref_differs h h1 va D1 Va) in X.
  destruct (xdr N Ea ta (habs h1 s1) (deref h va)) as [[wr vq2]| |]; cbn [obind];
    [|apply agrees_panic in X; rewrite X; exact I|apply agrees_nofuel in X; rewrite X; exact I].
  apply agrees_ret in X. destruct X as (y & Ey & h2 & s2 & v2 & -> & Hs & Hv & T2). cbn [fst snd] in Hs, Hv. rewrite Ey. clear Ey. subst wr.
  set (c4 := set_nth c3 a (vstate s2)).
  assert (L4 : List.length c4 = Datatypes.S a) by (unfold c4; lens).
  assert (C4a : nth_error c4 a = Some (vstate s2)) by (unfold c4; look; reflexivity).
  assert (C4q : nth_error c4 q = Some g1) by (unfold c4; look; reflexivity).
  assert (C4p : nth_error c4 p = Some (gclient c)) by (unfold c4; look; reflexivity).
  assert (C4 : forall k, (k < q)%nat -> nth_error c4 k = nth_error c1 k) by (intros k K; unfold c4; look; apply C3; assumption).
  clearbody c4. clear C3 C3q C3p C3a L3 c3.
  assert (TT : tstep none h s0 h2 s2) by (eapply tstep_trans; [exact T|exact T2|]; auto).
  assert (D2 : differs_at none h h2).
  { destruct TT as (_ & _ & D & _). eapply differs_weaken; [exact D|]. intros ? ? _ [[_ F]|[]]. exact F. }
  set (w2 := set_obj w ia (Ea, ta, v2)).
  assert (Hr2 : nth_error (w_objs w2) ir = Some (Er, tr, vr)) by (cbn; rewrite get_other by exact Hne; exact Hr).
  gor. step. rewrite (call_error grow N C rw hs ext M _ _ _ _ _ s2 C4a). change (Error (habs h2 s2)) with (h_err s2).
  destruct (h_err s2) as [e|] eqn:E2.
  { destruct (verr_some e) as (f & l & Ev). rewrite Ev. gor. step. step. cbn [finish obind]. gor. rewrite <- Ev.
    exists h2, c4, w2, vr. split; [reflexivity|]. split; [reflexivity|]. split; [reflexivity|]. split; [exact Hr2|].
    split; [apply deref_differs; assumption|]. split; [exact D2|]. exact C4. }
  change (verr None) with WNil. gor. step. rewrite after_next.
  rewrite Eg1 in C4q.
  pose proof (io_text n h2 c4 w2 s2 c a q p (WNum "uint32" proc) vcred vverf (WObj ia) ir mt' cb1 rb1 Er tr vr
    C4a C4p C4q Hr2 (proj1 (proj2 TT)) (valid_differs _ _ _ _ D2 Vr)) as Z.
  rewrite (deref_differs h h2 vr D2 Vr) in Z.
  erewrite cont_eq in Z by (cbv [skipn fbody client_Client_Call]; reflexivity).
  unfold rest. cbn [obind]. change (WriteBuf (habs h2 s2)) with (gread h2 (h_buf s2)). change (w_conn w) with (w_conn w2).
  match type of Z with agrees _ ?L ?X => change (agrees R0 L X) end.
  revert Z. apply agrees_impl. intros [[[cc ss] vv] ee] y (h6 & c6 & w6 & v6 & -> & -> & Z1 & Z2 & Z3 & Z4 & Z5).
  exists h6, c6, w6, v6. split; [reflexivity|]. split; [reflexivity|]. split; [exact Z1|]. split; [exact Z2|]. split; [exact Z3|].
  split; [eapply differs_trans; eassumption|]. intros k K. rewrite Z5 by lia. apply C4. exact K.
Qed.

Lemma Call_text n h cs w p c proc f1 b1 f2 b2 ia ir Ea ta va Er tr vr :
  nth_error cs p = Some (gclient c) ->
  nth_error (w_objs w) ia = Some (Ea, ta, va) -> nth_error (w_objs w) ir = Some (Er, tr, vr) -> ia <> ir ->
  gvalid h b1 -> gvalid h b2 -> valid_in h va -> valid_in h vr ->
  agrees (fun x r => let '(c', s', v', e) := x in exists h' cs' w' vr', r = (mkMem h' cs' w', [vcerr e]) /\
      nth_error cs' p = Some (gclient c') /\ w_conn w' = s' /\ nth_error (w_objs w') ir = Some (Er, tr, vr') /\ deref h' vr' = v' /\
      differs_at none h h' /\ forall q, q <> p -> (q < List.length cs)%nat -> nth_error cs' q = nth_error cs q)
    (Call N C c (w_conn w) proc (auth_val f1 (option_map (sread h) b1)) (auth_val f2 (option_map (sread h) b2))
       (mkXv Ea ta (deref h va)) (mkXv Er tr (deref h vr)))
    (Run (Datatypes.S (Datatypes.S n)) "Client.Call" [WPtr p; WNum "uint32" proc; gauth f1 b1; gauth f2 b2; WObj ia; WObj ir] (mkMem h cs w)).
Proof.
  intros Hc Ha Hr Hne V1 V2 Va Vr. assert (Hp : (p < List.length cs)%nat) by (apply nth_error_Some; congruence).
  match goal with |- agrees ?R _ _ => set (R0 := R) end.
  unfold rpc_run. enter f_Call. unfold gauth, fbody, client_Client_Call, SrcCli.gclient in *. step. step.
  match goal with |- context [set_nth cs p ?v ++ [?z]] => set (c1 := set_nth cs p v ++ [z]); set (q := List.length (set_nth cs p v)) end.
  assert (Lq : q = List.length cs) by (unfold q; lens).
  assert (L1 : List.length c1 = Datatypes.S q) by (unfold c1; rewrite Lq; lens).
  assert (C1p : nth_error c1 p = Some (gclient (incr_xid c))) by (unfold c1; look; reflexivity).
  assert (C1q : nth_error c1 q = Some zmsg) by (unfold c1; look; reflexivity).
  assert (C1 : forall k, k <> p -> (k < q)%nat -> nth_error c1 k = nth_error cs k) by (intros k K1 K2; unfold c1; look; reflexivity).
  clearbody c1 q. unfold SrcCli.gclient, zmsg, gmsg, gcbody, gauth in C1p, C1q.
  step. step. step. step.  step. step. step. step.
  match goal with |- context [set_nth c1 q ?v] => set (g := v) end.
  assert (Hg : deref h (to_h g) = req_msg (incr_xid c) proc (auth_val f1 (option_map (sread h) b1)) (auth_val f2 (option_map (sread h) b2))).
  { unfold g. destruct b1, b2; reflexivity. }
  assert (Tg : gtype g = gtype zmsg) by reflexivity.
  assert (Sg : hslices (to_h g) = match b1 with Some s => [s] | None => [] end ++ match b2 with Some s => [s] | None => [] end).
  { unfold g. destruct b1, b2; reflexivity. }
  assert (Gg : exists cb rb, g = gmsg (cl_xid (incr_xid c)) 0 cb rb) by (eexists; eexists; reflexivity).
  clearbody g. rewrite after_next.
  assert (Vg : valid_in h (to_h g)).
  { unfold valid_in. rewrite Sg. apply Forall_app. split; [destruct b1|destruct b2]; constructor; first [assumption|constructor]. }
  set (c2 := set_nth c1 q g).
  assert (C2q : nth_error c2 q = Some g) by (unfold c2; look; reflexivity).
  assert (C2p : nth_error c2 p = Some (gclient (incr_xid c))) by (unfold c2; look; reflexivity).
  assert (L2 : List.length c2 = Datatypes.S q) by (unfold c2; lens).
  assert (C2 : forall k, k <> p -> (k < q)%nat -> nth_error c2 k = nth_error cs k) by (intros k K1 K2; unfold c2; look; apply C1; assumption).
  clearbody c2.
  pose proof (req_text n h c2 w q p (incr_xid c) proc (auth_val f1 (option_map (sread h) b1)) (auth_val f2 (option_map (sread h) b2)) (gauth f1 b1) (gauth f2 b2)
    ia ir Ea ta va Er tr vr g C2p C2q L2 ltac:(lia) ltac:(lia) Ha Hr Hne Hg Tg Vg Gg Va Vr) as Z.
  erewrite cont_eq in Z by (cbv [skipn fbody client_Client_Call]; reflexivity). unfold rest.
  match type of Z with agrees _ ?L ?X => change (agrees R0 L X) end.
  revert Z. apply agrees_impl. intros [[[cc ss] vv] ee] y (h6 & c6 & w6 & v6 & -> & -> & Z1 & Z2 & Z3 & Z4 & Z5).
  exists h6, c6, w6, v6. split; [reflexivity|]. split; [rewrite Z5 by lia; exact C2p|]. split; [exact Z1|]. split; [exact Z2|]. split; [exact Z3|].
  split; [exact Z4|]. intros k K1 K2. rewrite Z5 by lia. apply C2; [exact K1|lia].
Qed.

(** client.go:18-25 *)
Lemma f_MakeClient : find_fun rpc_pkg "MakeClient" =
  Some ([("rw", ESel (EId "io") "ReadWriter"); ("prog", EId "uint32"); ("vers", EId "uint32")], [EUn "*" (EId "Client")], fbody client_MakeClient).
Proof. reflexivity. Qed.
Lemma MakeClient_text n h cs w prog vers :
  Run (Datatypes.S n) "MakeClient" [WObj rw; WNum "uint32" prog; WNum "uint32" vers] (mkMem h cs w) =
  Ret (mkMem h (cs ++ [gclient (MakeClient prog vers)]) w, [WPtr (List.length cs)]).
Proof.
  unfold rpc_run. enter f_MakeClient. unfold fbody, client_MakeClient. step. step. cbn [finish]. gor. reflexivity.
Qed.
End Client.
