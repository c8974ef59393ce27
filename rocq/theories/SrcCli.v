(** /repo/rfc1057/client.go, as its text says, computes what Client.v says. *)
From Verif Require Import GoLex SrcAst SrcProg.
From Verif Require Import Bytes XdrLib Types Interp Heap HeapP HeapX RpcTypes Io Client Server SrcSem SrcLib SrcLibB SrcLibC SrcRpc SrcMsg.
Open Scope string_scope.
Open Scope Z_scope.
Open Scope list_scope.

(** ** Tactics *)
Ltac lens := repeat (rewrite ?set_nth_len; rewrite app_length); rewrite ?set_nth_len; cbn [List.length]; lia.
Ltac rconsts := repeat match goal with
  | |- context G [31 <? 0] => let g := context G [false] in change g
  | |- context G [Z.shiftl 1 31] => let g := context G [2147483648] in change g
  | |- context [rpc_consts ?s] => let v := eval vm_compute in (rpc_consts s) in change (rpc_consts s) with v
  | |- context [GoLex.mem ?s rpc_pkgs] => let v := eval vm_compute in (GoLex.mem s rpc_pkgs) in change (GoLex.mem s rpc_pkgs) with v
  | |- context [rpc_structs ?s] => let v := eval vm_compute in (rpc_structs s) in change (rpc_structs s) with v
  end.
Lemma nth_new {A} (c : list A) a j : j = List.length c -> nth_error (c ++ [a]) j = Some a.
Proof. intros ->. rewrite nth_error_app2, Nat.sub_diag by lia. reflexivity. Qed.
Ltac look := repeat match goal with
  | H : nth_error ?c ?j = Some _ |- context [nth_error ?c ?j] => rewrite H
  | |- context [nth_error (set_nth ?c ?i ?v) ?j] => first [rewrite (get_other c i j v) by lens | replace j with i by lens; rewrite (get_set c i v) by lens]
  | |- context [nth_error (?a ++ [?b]) ?j] => first [rewrite (nth_error_app1 a [b]) by lens | rewrite (nth_new a b j) by lens]
  end.
Ltac gor := repeat (progress (go; cbn [gmsg gcbody grbody gareply grreply gmismatch gauth]; rconsts; rewrite ?set_set; look)).
(** One statement; the rest of the body is kept out of sight. *)
Ltac step := rewrite ?after_next, ?after_ret;
  try match goal with |- context [exec_body _ _ _ _ _ _ None ?B _ _] => is_var B; unfold B; clear B end;
  rewrite ?body_nil;
  try (rewrite body_cons by reflexivity; match goal with |- context [after _ _ _ _ _ _ ?b] => let T := fresh "rest" in set (T := b) end);
  gor.

Lemma run_ext' {W} grow pkgs consts structs P (ext : string -> list gv -> mem W -> outcome (mem W * list gv)) n f args m :
  find_fun P f = None -> run grow pkgs consts structs P ext (S n) f args m = ext f args m.
Proof. intros H. cbn [run]. rewrite H. reflexivity. Qed.

Lemma agrees_ret {A B} (R : A -> B -> Prop) x b : agrees R (Ret x) b -> exists y, b = Ret y /\ R x y.
Proof. destruct b; cbn; try contradiction. eauto. Qed.
Lemma agrees_panic {A B} (R : A -> B -> Prop) b : agrees R Panic b -> b = Panic.
Proof. destruct b; cbn; try contradiction. auto. Qed.
Lemma agrees_nofuel {A B} (R : A -> B -> Prop) b : agrees R NoFuel b -> b = NoFuel.
Proof. destruct b; cbn; try contradiction. auto. Qed.

(** ** Memory *)
Lemma valid_differs P h h' v : differs_at P h h' -> valid_in h v -> valid_in h' v.
Proof. intros D H. eapply Forall_impl; [|exact H]. intros sl. apply svalid_differs with (P := P). exact D. Qed.
Lemma deref_differs h h' v : differs_at none h h' -> valid_in h v -> deref h' v = deref h v.
Proof.
  intros D H. apply deref_ext. intros sl Hi. unfold valid_in in H. rewrite Forall_forall in H.
  eapply sread_differs; [exact D|apply H; exact Hi|]. intros i _ [].
Qed.
Lemma valid_app h l v : valid_in h v -> valid_in (h ++ l) v.
Proof. intros H. eapply Forall_impl; [|exact H]. intros sl Hs. exact (gvalid_app h l (Some sl) Hs). Qed.
Lemma differs_new P h l : differs_at P h (h ++ [l]).
Proof. split; [rewrite app_length; lia|]. intros b Hb. rewrite block_app1 by exact Hb. auto. Qed.

(** ** Errors as values *)
Lemma verr_some e : exists f a, verr (Some e) = WErr f a.
Proof. destruct e; cbn; eauto. Qed.
Lemma vio_some e : exists f a, vio (Some e) = WErr f a.
Proof. destruct e; cbn; eauto. Qed.

Ltac resume := match goal with |- context [skipn ?k ?b] => let v := eval cbv [skipn fbody client_Client_Call] in (skipn k b) in change (skipn k b) with v end.

Local Strategy expand [obind].
Local Strategy opaque [run].

Section Client.
Context {S U : Type}.
Variable grow : nat -> nat -> nat.
Hypothesis grow_ok : grows grow.
Variable N : nat.
Variable C : conn S.
Variable rw : nat.
Variable hs : nat -> handler U.
Variable ext : string -> list gv -> mem (world S U) -> outcome (mem (world S U) * list gv).
Hypothesis M : meets grow N C rw hs ext.
Notation Run := (rpc_run grow ext).

Definition gclient (c : client) : gv :=
  WStruct "Client" [("rw", WObj rw); ("xid", WNum "uint32" (cl_xid c)); ("prog", WNum "uint32" (cl_prog c)); ("vers", WNum "uint32" (cl_vers c))].


(** ** Calls of other packages *)
Notation RunX k := (run grow rpc_pkgs rpc_consts rpc_structs rpc_pkg ext (Datatypes.S k)).
Lemma call_reader k h cs w o : RunX k "xdr.MakeReader" [WSl o] (mkMem h cs w) = Ret (mkMem h (cs ++ [vstate (mkHst None true o)]) w, [WPtr (List.length cs)]).
Proof. rewrite run_ext' by reflexivity. rewrite (m_reader _ _ _ _ _ _ M). apply MakeReader_text. Qed.
Lemma call_writer k h cs w o : RunX k "xdr.MakeWriter" [WSl o] (mkMem h cs w) = Ret (mkMem h (cs ++ [vstate (mkHst None false o)]) w, [WPtr (List.length cs)]).
Proof. rewrite run_ext' by reflexivity. rewrite (m_writer _ _ _ _ _ _ M). apply MakeWriter_text. Qed.
Lemma call_writer0 k h cs w : RunX k "xdr.MakeWriter" [WNil] (mkMem h cs w) = Ret (mkMem h (cs ++ [vstate (mkHst None false None)]) w, [WPtr (List.length cs)]).
Proof. rewrite run_ext' by reflexivity. rewrite (m_writer _ _ _ _ _ _ M). apply MakeWriter_nil. Qed.
Lemma call_error k h cs w p s : nth_error cs p = Some (vstate s) ->
  RunX k "XdrState.Error" [WPtr p] (mkMem h cs w) = Ret (mkMem h cs w, [verr (h_err s)]).
Proof. intros H. rewrite run_ext' by reflexivity. rewrite (m_error _ _ _ _ _ _ M). apply Error_text. exact H. Qed.
Lemma call_buf k h cs w p s : nth_error cs p = Some (vstate s) ->
  RunX k "XdrState.WriteBuf" [WPtr p] (mkMem h cs w) = Ret (mkMem h cs w, [WSl (h_buf s)]).
Proof. intros H. rewrite run_ext' by reflexivity. rewrite (m_buf _ _ _ _ _ _ M). apply WriteBuf_text. exact H. Qed.

(** What is left of Call after its first [k] statements. *)
Definition cont (n k : nat) (m : mem (world S U)) (en : genv) : outcome (mem (world S U) * list gv) :=
  obind (exec_body grow rpc_pkgs rpc_consts rpc_structs (RunX n) (Datatypes.S n) None (skipn k (fbody client_Client_Call)) m en) (finish [EId "error"]).

(** client.go:77-108 *)
Lemma reply_text n h cs w o vh vd vb vw q vp vproc vc vv va ir xid mt cb rb Er tr vr :
  nth_error cs q = Some (gmsg xid mt cb rb) -> nth_error (w_objs w) ir = Some (Er, tr, vr) -> gvalid h o -> valid_in h vr ->
  agrees (fun x r => exists h' cs' w' vr', r = (mkMem h' cs' w', [vcerr (snd x)]) /\ w_conn w' = w_conn w /\
      nth_error (w_objs w') ir = Some (Er, tr, vr') /\ deref h' vr' = fst x /\ differs_at none h h' /\
      forall k, (k < List.length cs)%nat -> nth_error cs' k = nth_error cs k)
    (call_reply N xid (gread h o) (mkXv Er tr (deref h vr)))
    (cont n 29 (mkMem h cs w) [("buf", WSl o); ("hlen", vh); ("hdr", vd); ("wbuf", vb); ("err", WNil); ("wr", vw); ("req", WRef q); ("c", vp);
       ("proc", vproc); ("cred", vc); ("verf", vv); ("args", va); ("resp", WObj ir)]).
Proof.
  intros Hq Hr Vo Vr. assert (Lq : (q < List.length cs)%nat) by (apply nth_error_Some; congruence).
  match goal with |- agrees ?R _ _ => set (R0 := R) end. unfold cont. resume.
  step. rewrite call_reader. gor. step.
  match goal with |- context [(cs ++ [?a]) ++ [?b]] => set (c1 := (cs ++ [a]) ++ [b]) end.
  rewrite app_length. cbn [List.length]. rewrite Nat.add_1_r. set (a := List.length cs). assert (La : a = List.length cs) by reflexivity. set (b := Datatypes.S a).
  assert (Ca : nth_error c1 a = Some (vstate (mkHst None true o))) by (unfold c1, a; look; reflexivity).
  assert (Cb : nth_error c1 b = Some zmsg) by (unfold c1, a, b; look; reflexivity).
  assert (C1 : forall k, (k < a)%nat -> nth_error c1 k = nth_error cs k) by (intros k K; unfold c1; look; reflexivity).
  assert (L1 : List.length c1 = Datatypes.S b) by (unfold c1, a, b; lens).
  assert (Hab : b = Datatypes.S a) by reflexivity.
  clearbody c1 a b. step. unfold zmsg, gmsg; gor. rewrite run_ext' by reflexivity.
  unfold call_reply. pose proof (m_msg _ _ _ _ _ _ M h c1 w a b _ _ Ca Cb eq_refl Vo (Forall_nil _)) as X.
  rewrite zmsg_zero in X. change (habs h (mkHst None true o)) with (MakeReader (gread h o)) in X. cbn [xv_env xv_ty xv_val].
  destruct (xdr N rpc_env msg_t (MakeReader (gread h o)) zero_msg) as [[rd res]| |]; cbn [obind];
    [|apply agrees_panic in X; rewrite X; exact I|apply agrees_nofuel in X; rewrite X; exact I].
  apply agrees_ret in X. destruct X as (y & Ey & h1 & s1 & g1 & -> & Hs & Hg & Ht & T). cbn [fst snd] in Hs, Hg. rewrite Ey. subst rd res.
  gor.
  destruct (msg_inv g1 Ht) as (xid' & mt' & rv & pg & vs & pc & f1 & b1 & f2 & b2 & st & f3 & b3 & ast & bs & lo & hi & rst & lo2 & hi2 & au & Eg).
  set (c2 := set_nth (set_nth c1 a (vstate s1)) b g1).
  assert (C2a : nth_error c2 a = Some (vstate s1)) by (unfold c2; look; reflexivity).
  assert (C2b : nth_error c2 b = Some g1) by (unfold c2; look; reflexivity).
  assert (C2 : forall k, (k < a)%nat -> nth_error c2 k = nth_error cs k) by (intros k K; unfold c2; look; apply C1; exact K).
  assert (C2q : nth_error c2 q = Some (gmsg xid mt cb rb)) by (rewrite C2 by lia; exact Hq).
  clearbody c2. clear Cb Ca C1 L1 c1 Hq Ey.
  assert (D1 : differs_at none h h1).
  { destruct T as (_ & _ & D & _). eapply differs_weaken; [exact D|]. intros ? ? _ [[F _]|[]]. discriminate F. }
  assert (V1 : gvalid h1 (h_buf s1)) by apply T. assert (R1 : h_reader s1 = true) by apply T.
  assert (Q1 : deref h1 vr = deref h vr) by (apply deref_differs; assumption).
  assert (FIN : forall e, R0 (deref h vr, e) (mkMem h1 c2 w, [vcerr e])).
  { intros e. exists h1, c2, w, vr. split; [reflexivity|]. split; [reflexivity|]. split; [exact Hr|]. split; [exact Q1|]. split; [exact D1|]. intros k K. apply C2. lia. }
  step. rewrite (call_error _ _ _ _ _ s1 C2a). change (Error (habs h1 s1)) with (h_err s1).
  destruct (h_err s1) as [e|] eqn:E1.
  { destruct (verr_some e) as (f & l & Ev). rewrite Ev. gor. step. step. cbn [finish]. gor. rewrite <- Ev. exact (FIN (Some (CXdr e))). }
  change (verr None) with WNil. gor. step.
  assert (I1 : get_int ["Xid"] (deref h1 (to_h g1)) = xid') by (rewrite Eg; reflexivity).
  assert (I2 : get_int ["Body"; "Mtype"] (deref h1 (to_h g1)) = mt') by (rewrite Eg; reflexivity).
  assert (I3 : get_int ["Body"; "Rbody"; "Stat"] (deref h1 (to_h g1)) = st) by (rewrite Eg; reflexivity).
  assert (I4 : get_int ["Body"; "Rbody"; "Rreply"; "Stat"] (deref h1 (to_h g1)) = rst) by (rewrite Eg; reflexivity).
  assert (I5 : get_int ["Body"; "Rbody"; "Areply"; "Reply_data"; "Stat"] (deref h1 (to_h g1)) = ast) by (rewrite Eg; reflexivity).
  rewrite I1, I2, I3, I4, I5. clear I1 I2 I3 I4 I5. rewrite Eg in C2b. clear Eg Ht.
  unfold gmsg, grbody, gareply, grreply in C2b, C2q.
  step. destruct (negb (xid' =? xid)); gor.
  { step. cbn [finish]. gor. exact (FIN (Some (CXidMismatch xid' xid))). }
  step. change (negb (mt' =? 1)) with (negb (mt' =? REPLY)). destruct (negb (mt' =? REPLY)); gor.
  { step. cbn [finish]. gor. exact (FIN (Some (CNotReply mt'))). }
  step. change (negb (st =? 0)) with (negb (st =? MSG_ACCEPTED)). destruct (negb (st =? MSG_ACCEPTED)); gor.
  { step. cbn [finish]. gor. exact (FIN (Some (CDenied rst))). }
  step. change (negb (ast =? 0)) with (negb (ast =? SUCCESS)). destruct (negb (ast =? SUCCESS)); gor.
  { step. cbn [finish]. gor. exact (FIN (Some (CAccept ast))). }
  step. rewrite run_ext' by reflexivity.
  assert (SV : safe h1 s1 vr).
  { eapply Forall_impl; [|eapply valid_differs; [exact D1|exact Vr]]. intros sl Hsl. split; [exact Hsl|]. rewrite R1. discriminate. }
  pose proof (m_xdr _ _ _ _ _ _ M h1 c2 w a s1 ir Er tr vr C2a Hr V1 SV) as X. rewrite Q1 in X.
  destruct (xdr N Er tr (habs h1 s1) (deref h vr)) as [[rd v]| |]; cbn [obind];
    [|apply agrees_panic in X; rewrite X; exact I|apply agrees_nofuel in X; rewrite X; exact I].
  apply agrees_ret in X. destruct X as (y & Ey & h2 & s2 & v2 & -> & Hs & Hv & T2). cbn [fst snd] in Hs, Hv. rewrite Ey. subst rd v.
  clear FIN. assert (D2 : differs_at none h1 h2).
  { destruct T2 as (_ & _ & D & _). eapply differs_weaken; [exact D|]. intros ? ? _ [[F _]|[]]. congruence. }
  set (c3 := set_nth c2 a (vstate s2)).
  assert (L2 : (a < List.length c2)%nat) by (apply nth_error_Some; congruence).
  assert (C3a : nth_error c3 a = Some (vstate s2)) by (unfold c3; look; reflexivity).
  assert (FIN : forall e, R0 (deref h2 v2, e) (mkMem h2 c3 (set_obj w ir (Er, tr, v2)), [vcerr e])).
  { intros e. exists h2, c3, (set_obj w ir (Er, tr, v2)), v2. split; [reflexivity|]. split; [reflexivity|].
    split; [cbn; apply get_set; apply nth_error_Some; congruence|]. split; [reflexivity|]. split; [eapply differs_trans; eassumption|].
    intros k K. unfold c3. look. apply C2. lia. }
  clearbody c3. gor. step. rewrite (call_error _ _ _ _ _ s2 C3a). change (Error (habs h2 s2)) with (h_err s2).
  destruct (h_err s2) as [e|] eqn:E2.
  { destruct (verr_some e) as (f & l & Ev). rewrite Ev. gor. step. step. cbn [finish]. gor. rewrite <- Ev. exact (FIN (Some (CXdr e))). }
  change (verr None) with WNil. gor. step. step. cbn [finish]. gor. exact (FIN None).
Qed.
End Client.
