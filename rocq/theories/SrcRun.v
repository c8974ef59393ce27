(** /repo/rfc1057/server.go, as its text says, computes what Server.v says: the loop that reads requests and what each goroutine does. *)
From Verif Require Import GoLex SrcAst SrcProg.
From Verif Require Import Bytes XdrLib Types Interp Heap HeapP HeapX RpcTypes Io Client ClientP Server SrcSem SrcLib SrcLibB SrcLibC SrcRpc SrcMsg SrcCli SrcCliB SrcReg SrcSrv SrcSrvB.
Open Scope string_scope.
Open Scope Z_scope.
Open Scope list_scope.

Local Strategy expand [obind].
Local Strategy opaque [run].

Ltac bstep := rewrite ?bafter_next;
  try match goal with |- context [block _ _ _ None ?B _ _] => is_var B; unfold B; clear B end;
  rewrite ?block_nil;
  try (rewrite block_cons; match goal with |- context [bafter _ _ _ ?b] => let T := fresh "more" in set (T := b) end; rewrite ?exec_if);
  gor.
Section Server.
Context {S U : Type}.
Variable grow : nat -> nat -> nat.
Hypothesis grow_ok : grows grow.
Variable N : nat.
Variable C : conn S.
Variable rw : nat.
Variable hs : nat -> handler U.
Variable ext : string -> list gv -> mem (world S U) -> outcome (mem (world S U) * list gv).
Hypothesis M : meets grow N C rw hs ext.
Notation Run := (rpc_run grow ext).
Notation RunX k := (run grow rpc_pkgs rpc_consts rpc_structs rpc_pkg ext (Datatypes.S k)).
Notation gsconn := (gsconn rw).
Notation srv_at := (srv_at hs).

(** ** server.go:14-30 *)
Lemma f_putReqBuf : find_fun rpc_pkg "putReqBuf" = Some ([("s", TSlice (EId "byte"))], [], fbody server_putReqBuf).
Proof. reflexivity. Qed.
Lemma putReqBuf_text n h cs w o :
  Run (Datatypes.S (Datatypes.S n)) "putReqBuf" [WSl o] (mkMem h cs w) = Ret (mkMem h cs (add_log w (EPut (WSl o))), []).
Proof.
  unfold rpc_run. enter f_putReqBuf. unfold fbody, server_putReqBuf. step. rewrite run_ext' by reflexivity. rewrite (m_put _ _ _ _ _ _ M). gor. step.
  cbn [finish]. gor. reflexivity.
Qed.
Lemma f_getReqBuf : find_fun rpc_pkg "getReqBuf" = Some ([("buflen", EId "int")], [TSlice (EId "byte")], fbody server_getReqBuf).
Proof. reflexivity. Qed.
Lemma getReqBuf_text n h cs w k :
  exists h' o, Run (Datatypes.S (Datatypes.S n)) "getReqBuf" [WNum "int" (Z.of_nat k)] (mkMem h cs w) = Ret (mkMem h' cs w, [WSl o]) /\
    differs_at anywhere h h' /\ gvalid h' o /\ glen o = k.
Proof.
  unfold rpc_run. enter f_getReqBuf. unfold fbody, server_getReqBuf. step. rewrite run_ext' by reflexivity.
  destruct (m_get _ _ _ _ _ _ M h cs w) as (h1 & v & X & D & Hv). unfold pool in X. rewrite X. clear X.
  assert (NEW : exists h' o, Ret (mkMem (h1 ++ [zeros k]) cs w, [WSl (Some (mkSl (List.length h1) 0 k k))]) = Ret (mkMem h' cs w, [WSl o]) /\
    differs_at anywhere h h' /\ gvalid h' o /\ glen o = k).
  { eexists; eexists; split; [reflexivity|]. split; [eapply differs_trans; [exact D|apply differs_new]|]. split; [|reflexivity].
    apply (arr_valid h1 (zeros k) k). apply repeat_length. }
  assert (LZ : List.length (zeros k) = k) by apply repeat_length.
  assert (NN : Z.of_nat k <? 0 = false) by (apply Z.ltb_ge; lia).
  destruct Hv as [->|(s & -> & V)].
  - gor. step. step. rewrite NN, Nat2Z.id. gor. rewrite LZ. step. cbn [finish]. gor. exact NEW.
  - gor. step. destruct (Z.leb_spec (Z.of_nat k) (Z.of_nat (sl_cap s))) as [L|L]; gor.
    + unfold subslice. cbn [glen gcap].
      rewrite (proj2 (Z.leb_le 0 (Z.of_nat k))), (proj2 (Z.leb_le _ _) L), !Z.leb_refl by lia. gor. step. cbn [finish]. gor.
      eexists; eexists; split; [reflexivity|]. split; [exact D|]. split; [|cbn [glen sl_len]; lia].
      cbn [gvalid]. unfold svalid in *. cbn [sl_blk sl_off sl_len sl_cap]. destruct V as (V1 & V2 & V3). split; [exact V1|]. lia.
    + step. rewrite NN, Nat2Z.id. gor. rewrite LZ. step. cbn [finish]. gor. exact NEW.
Qed.

(** ** server.go:97-105 *)
Lemma f_handleReq : find_fun rpc_pkg "serverConn.handleReq" =
  Some ([("sc", EUn "*" (EId "serverConn")); ("buf", TSlice (EId "byte"))], [], fbody server_serverConn_handleReq).
Proof. reflexivity. Qed.
Lemma body_defer {W} grow' pkgs consts structs (call : string -> list gv -> mem W -> outcome (mem W * list gv)) n f args dd b m en :
  exec_body grow' pkgs consts structs call n None (SDefer (ECall (EId f) args dd) :: b) m en =
  obind (evals grow' pkgs consts structs call args m en) (fun x => let '(m, vs) := x in
    obind (exec_body grow' pkgs consts structs call n None b m en) (fun y => let '(m, en, c) := y in
      obind (invoke grow' call f m vs) (fun z => let '(m, _) := z in Ret (m, en, c)))).
Proof. reflexivity. Qed.
Definition printed (e : option serr) : list event :=
  match e with None => [] | Some _ => [EPrint [WObj stderr; WStr (str_bytes "%v" ++ [Byte.x0a]); vserr e]] end.
Lemma handleReq_text n h cs w own top srv p o :
  nth_error cs p = Some (gsconn top) -> srv_at cs own top srv -> gvalid h o ->
  agrees (fun x y => let '(s', u', e) := x in exists h' cs' w', y = (mkMem h' cs' w', []) /\ w_conn w' = s' /\ w_user w' = u' /\
      w_log w' = w_log w ++ printed e ++ [EPut (WSl o)] /\
      differs_at anywhere h h' /\ (forall i, (i < List.length cs)%nat -> nth_error cs' i = nth_error cs i))
    (handleReqErr N C srv (w_conn w) (w_user w) (gread h o))
    (Run (Datatypes.S (Datatypes.S (Datatypes.S n))) "serverConn.handleReq" [WPtr p; WSl o] (mkMem h cs w)).
Proof.
  intros Hp Hs Vo. match goal with |- agrees ?R _ _ => set (R0 := R) end.
  pose proof (handleReqErr_text grow N C rw hs ext M n h cs w own top srv p o Hp Hs Vo) as X.
  unfold rpc_run. enter f_handleReq. unfold fbody, server_serverConn_handleReq, SrcSrv.gsconn in *. rewrite body_defer. gor. step.
  unfold rpc_run in X.
  destruct (handleReqErr N C srv (w_conn w) (w_user w) (gread h o)) as [[[s' u'] e]| |];
    [|apply agrees_panic in X; rewrite X; exact I|apply agrees_nofuel in X; rewrite X; exact I].
  apply agrees_ret in X. destruct X as (y & Ey & h1 & c1 & w1 & -> & X1 & X2 & X3 & X4 & X5). rewrite Ey. clear Ey.
  pose proof (putReqBuf_text n) as PUT. unfold rpc_run in PUT.
  destruct e as [e|].
  - assert (VE : exists f l, vserr (Some e) = WErr f l) by (destruct e as [e|z|e]; [apply verr_some|cbn; eauto|apply vio_some]).
    destruct VE as (f & l & Ev). rewrite Ev. gor. step. rewrite run_ext' by reflexivity.
    match goal with |- context [ext "fmt.Fprintf" ?a ?m] => destruct (m_print _ _ _ _ _ _ M m a) as [k0 Y] end. rewrite Y. clear Y. unfold rest. gor. step. rewrite PUT. gor. cbn [finish].
    exists h1, c1, (add_log (add_log w1 (EPrint [WObj stderr; WStr (str_bytes "%v" ++ [Byte.x0a]); vserr (Some e)])) (EPut (WSl o))).
    split; [rewrite Ev; reflexivity|]. split; [exact X1|]. split; [exact X2|]. split; [cbn [w_log add_log printed app]; rewrite X3, <- app_assoc; reflexivity|]. auto.
  - change (vserr None) with WNil. gor. step. step. rewrite PUT. gor. cbn [finish].
    exists h1, c1, (add_log w1 (EPut (WSl o))). split; [reflexivity|]. split; [exact X1|]. split; [exact X2|]. split; [cbn; rewrite X3; reflexivity|]. auto.
Qed.

(** ** server.go:69-95 *)
(** [run_loop] of Server.v, with separate bounds for the number of requests and for io.ReadFull. *)
Fixpoint reads (n : nat) (s : S) (acc : list (list byte)) : outcome (S * list (list byte) * runerr) :=
  match n with
  | O => NoFuel
  | Datatypes.S n' =>
      'r <- read_full N C s 4 [] ;;
      match r with
      | (s1, _, Some e) => Ret (s1, acc, RIo e)
      | (s1, hdr, None) =>
          let hlen := get_u32 hdr in
          if Z.land hlen (2 ^ 31) =? 0 then Ret (s1, acc, RFragments)
          else
            'r2 <- read_full N C s1 (Z.to_nat (Z.land hlen 2147483647)) [] ;;
            match r2 with
            | (s2, _, Some e) => Ret (s2, acc, RIo e)
            | (s2, buf, None) => reads n' s2 (acc ++ [buf])
            end
      end
  end.
Lemma reads_ret m : forall n s acc r, (n <= m)%nat -> (n <= N)%nat -> run_loop n C s acc = Ret r -> reads m s acc = Ret r.
Proof.
  induction m as [|m IH]; intros n s acc r Hn HN H; [replace n with O in H by lia; discriminate H|].
  destruct n as [|n]; [discriminate H|]. cbn [run_loop reads] in *.
  destruct (read_full n C s 4 []) as [[[s1 hdr] e]| |] eqn:E1; cbn [obind] in H; [|discriminate H..].
  rewrite (read_full_mono n N C s 4 [] _ ltac:(lia) E1). cbn [obind]. destruct e as [e|]; [exact H|]. cbv zeta in *.
  destruct (_ =? 0); [exact H|].
  destruct (read_full n C s1 _ []) as [[[s2 buf] e]| |] eqn:E2; cbn [obind] in H; [|discriminate H..].
  rewrite (read_full_mono n N C s1 _ [] _ ltac:(lia) E2). cbn [obind]. destruct e as [e|]; [exact H|]. eapply IH; [| |exact H]; lia.
Qed.
Lemma ret_reads n : forall s acc r, reads n s acc = Ret r -> run_loop (n + N) C s acc = Ret r.
Proof.
  induction n as [|n IH]; intros s acc r H; [discriminate H|]. cbn [Nat.add run_loop reads] in *.
  destruct (read_full N C s 4 []) as [[[s1 hdr] e]| |] eqn:E1; cbn [obind] in H; [|discriminate H..].
  rewrite (read_full_mono N (n + N) C s 4 [] _ ltac:(lia) E1). cbn [obind]. destruct e as [e|]; [exact H|]. cbv zeta in *.
  destruct (_ =? 0); [exact H|].
  destruct (read_full N C s1 _ []) as [[[s2 buf] e]| |] eqn:E2; cbn [obind] in H; [|discriminate H..].
  rewrite (read_full_mono N (n + N) C s1 _ [] _ ltac:(lia) E2). cbn [obind]. destruct e as [e|]; [exact H|]. apply IH. exact H.
Qed.
(** What Run has done: started handleReq for each buffer. *)
Definition started (sc : nat) (b : list byte) (ev : event) : Prop :=
  exists o, glen o = List.length b /\ ev = EGo (str_bytes "serverConn.handleReq") [WPtr sc; WSl o] b.
Lemma f_Run : find_fun rpc_pkg "Server.Run" =
  Some ([("s", EUn "*" (EId "Server")); ("rw", ESel (EId "io") "ReadWriter")], [EId "error"], fbody server_Server_Run).
Proof. reflexivity. Qed.
Definition run_body : list gs := match nth 1 (fbody server_Server_Run) (SLabel "") with SFor b => b | _ => [] end.
Notation Loops k n := (loops grow (RunX (Datatypes.S k)) (Datatypes.S (Datatypes.S k)) run_body n).
Lemma loop_text k top sc n : forall h cs w acc evs,
  nth_error cs sc = Some (gsconn top) -> Forall2 (started sc) acc evs ->
  agrees (fun x y => exists h' cs' w' evs', y = (mkMem h' cs' w', [("sc", WPtr sc); ("s", WPtr top); ("rw", WObj rw)], CRet [vrerr (snd x)]) /\
      w_conn w' = fst (fst x) /\ w_user w' = w_user w /\ w_objs w' = w_objs w /\ Forall2 (started sc) (snd (fst x)) (evs ++ evs') /\ w_log w' = w_log w ++ evs' /\
      differs_at anywhere h h' /\ (forall i, (i < List.length cs)%nat -> nth_error cs' i = nth_error cs i))
    (reads n (w_conn w) acc)
    (Loops k n (mkMem h cs w) [("sc", WPtr sc); ("s", WPtr top); ("rw", WObj rw)]).
Proof.
  induction n as [|n IH]; intros h cs w acc evs Hc HF; [exact I|].
  match goal with |- agrees ?R _ _ => set (R0 := R) end. unfold SrcSrv.gsconn in Hc. cbn [loops reads].
  unfold run_body at 1. cbv [nth fbody server_Server_Run].
  match goal with |- context [obind (obind _ ?a) ?b] => set (K1 := a); set (K2 := b) end.
  bstep. bstep. rewrite run_ext' by reflexivity. change (Some (mkSl (List.length h) 0 4 4)) with (arr h 4).
  set (h1 := h ++ [zeros 4]). assert (D1 : differs_at anywhere h h1) by apply differs_new.
  assert (V1 : gvalid h1 (arr h 4)) by (apply arr_valid; reflexivity).
  pose proof (m_read _ _ _ _ _ _ M h1 cs w (arr h 4) V1) as X. change (glen (arr h 4)) with 4%nat in X.
  destruct (read_full N C (w_conn w) 4 []) as [[[t1 hd] e1]| |] eqn:E1; cbn [obind];
    [|apply agrees_panic in X; rewrite X; exact I|apply agrees_nofuel in X; rewrite X; exact I].
  apply agrees_ret in X. destruct X as (y & Ey & h2 & k1 & -> & D2 & X). cbn [fst snd] in *. rewrite Ey. clear Ey.
  assert (D2' : differs_at anywhere h h2) by (eapply differs_trans; [exact D1|]; eapply differs_weaken; [exact D2|]; intros; exact I).
  clearbody h1.
  assert (FIN : forall h3 w3 e, differs_at anywhere h h3 -> w_user w3 = w_user w -> w_objs w3 = w_objs w -> w_log w3 = w_log w ->
    R0 (w_conn w3, acc, e) (mkMem h3 cs w3, [("sc", WPtr sc); ("s", WPtr top); ("rw", WObj rw)], CRet [vrerr e])).
  { intros h3 w3 e J1 J2 J3 J4. exists h3, cs, w3, []. split; [reflexivity|]. split; [reflexivity|]. split; [exact J2|]. split; [exact J3|].
    split; [rewrite app_nil_r; exact HF|]. split; [rewrite app_nil_r; exact J4|]. auto. }
  destruct e1 as [e|].
  { destruct (vio_some e) as (f & l & Ev). rewrite Ev. gor. bstep. unfold blk. bstep. cbn [bafter obind]. gor. unfold bafter, K1, K2. gor. rewrite <- Ev.
    exact (FIN h2 (set_conn w t1) (RIo e) D2' eq_refl eq_refl eq_refl). }
  specialize (X eq_refl). destruct (read_full_len _ _ _ _ _ _ _ E1) as (hd' & -> & Lhd). cbn [app] in *.
  change (vio None) with WNil. gor. bstep. bstep. change (Some (mkSl (List.length h) 0 4 4)) with (arr h 4). rewrite X, (firstn_len 4 hd' Lhd).
  bstep. assert (BU : 0 <= get_u32 hd' < 2 ^ 32) by apply get_u32_bound.
  rewrite land_u32 by exact BU. change (2 ^ 31) with 2147483648. destruct (Z.land (get_u32 hd') 2147483648 =? 0); gor.
  { unfold blk. bstep. cbn [bafter obind]. gor. unfold bafter, K1, K2. gor.
    exact (FIN h2 (set_conn w t1) RFragments D2' eq_refl eq_refl eq_refl). }
  bstep. rewrite land_u32 by exact BU. set (z := Z.land (get_u32 hd') 2147483647).
  assert (Bz : 0 <= z < 2 ^ 31).
  { unfold z. change 2147483647 with (Z.ones 31). rewrite Z.land_ones by lia. apply Z.mod_pos_bound. lia. }
  replace (to_s64 z) with z by (unfold to_s64; rewrite Z.mod_small by lia; lia).
  set (kn := Z.to_nat z). assert (Ez : z = Z.of_nat kn) by (unfold kn; lia). clearbody kn. rewrite Ez. clear Bz Ez z. gor. bstep.
  destruct (getReqBuf_text k h2 cs (set_conn w t1) kn) as (h3 & o & G & D3 & V3 & L3). unfold rpc_run in G. rewrite G. clear G. gor. bstep.
  rewrite run_ext' by reflexivity.
  pose proof (m_read _ _ _ _ _ _ M h3 cs (set_conn w t1) o V3) as Y. rewrite L3 in Y. cbn [w_conn set_conn] in Y.
  destruct (read_full N C t1 kn []) as [[[t2 bf] e2]| |] eqn:E2; cbn [obind];
    [|apply agrees_panic in Y; rewrite Y; exact I|apply agrees_nofuel in Y; rewrite Y; exact I].
  apply agrees_ret in Y. destruct Y as (y & Ey & h4 & k2 & -> & D4 & Y). cbn [fst snd] in *. rewrite Ey. clear Ey.
  change (set_conn (set_conn w t1) t2) with (set_conn w t2).
  assert (D4' : differs_at anywhere h h4).
  { eapply differs_trans; [exact D2'|]. eapply differs_trans; [exact D3|]. eapply differs_weaken; [exact D4|]. intros; exact I. }
  destruct e2 as [e|].
  { destruct (vio_some e) as (f & l & Ev). rewrite Ev. gor. bstep. unfold blk. bstep. cbn [bafter obind]. gor. unfold bafter, K1, K2. gor. rewrite <- Ev.
    exact (FIN h4 (set_conn w t2) (RIo e) D4' eq_refl eq_refl eq_refl). }
  specialize (Y eq_refl). change (vio None) with WNil. gor. bstep. bstep. rewrite run_ext' by reflexivity.
  match goal with |- context [ext "go" (WStr ?f :: _) _] => set (fn := f) end.
  destruct (m_go _ _ _ _ _ _ M h4 cs (set_conn w t2) fn (WPtr sc) o (gvalid_differs _ _ _ _ D4 V3)) as (h5 & c5 & G & D5 & G5). rewrite G. clear G. gor. bstep.
  unfold K1, K2. gor. rewrite Y.
  set (ev := EGo fn [WPtr sc; WSl o] bf). set (w5 := add_log (set_conn w t2) ev).
  assert (HS : started sc bf ev).
  { exists o. split; [|reflexivity]. destruct (read_full_len _ _ _ _ _ _ _ E2) as (d & Ed & Ld). cbn in Ed. subst d. congruence. }
  assert (Lc : (sc < List.length cs)%nat) by (apply nth_error_Some; congruence).
  pose proof (IH h5 c5 w5 (acc ++ [bf]) (evs ++ [ev]) ltac:(rewrite G5 by exact Lc; exact Hc) ltac:(apply Forall2_app; [exact HF|constructor; [exact HS|constructor]])) as Z.
  revert Z. change (w_conn w5) with t2. apply agrees_impl. intros x y' (h6 & c6 & w6 & evs' & -> & Z1 & Z2 & Z3 & Z4 & Z5 & Z6 & Z7).
  exists h6, c6, w6, (ev :: evs'). split; [reflexivity|]. split; [exact Z1|]. split; [exact Z2|]. split; [exact Z3|].
  split; [rewrite <- app_assoc in Z4; exact Z4|]. split; [rewrite Z5; unfold w5; cbn [w_log add_log set_conn]; rewrite <- app_assoc; reflexivity|].
  split; [eapply differs_trans; [exact D4'|eapply differs_trans; eassumption]|].
  intros i Hi. rewrite Z7; [apply G5; exact Hi|]. apply nth_error_Some. rewrite G5 by exact Hi. apply nth_error_Some. exact Hi.
Qed.
Lemma Run_reads k h cs w top :
  agrees (fun x y => exists h' cs' w' evs, y = (mkMem h' cs' w', [vrerr (snd x)]) /\
      nth_error cs' (List.length cs) = Some (gsconn top) /\
      w_conn w' = fst (fst x) /\ w_user w' = w_user w /\ w_objs w' = w_objs w /\ w_log w' = w_log w ++ evs /\
      Forall2 (started (List.length cs)) (snd (fst x)) evs /\
      differs_at anywhere h h' /\ (forall i, (i < List.length cs)%nat -> nth_error cs' i = nth_error cs i))
    (reads (Datatypes.S (Datatypes.S k)) (w_conn w) [])
    (Run (Datatypes.S (Datatypes.S (Datatypes.S k))) "Server.Run" [WPtr top; WObj rw] (mkMem h cs w)).
Proof.
  match goal with |- agrees ?R _ _ => set (R0 := R) end.
  unfold rpc_run. enter f_Run. unfold fbody, server_Server_Run. step. rewrite after_next. unfold rest. rewrite body_cons by reflexivity. rewrite exec_for.
  set (sc := List.length cs).
  assert (Hc : nth_error (cs ++ [gsconn top]) sc = Some (gsconn top)) by (unfold sc; rewrite nth_error_app2, Nat.sub_diag by lia; reflexivity).
  pose proof (loop_text k top sc (Datatypes.S (Datatypes.S k)) h (cs ++ [gsconn top]) w [] [] Hc (Forall2_nil _)) as Z.
  match type of Z with agrees _ _ ?X => set (E := X) in Z; match goal with |- context [obind (obind ?Y _) _] => change Y with E end end. clearbody E.
  destruct (reads (Datatypes.S (Datatypes.S k)) (w_conn w) []) as [[[s' bufs] e]| |];
    [|apply agrees_panic in Z; rewrite Z; exact I|apply agrees_nofuel in Z; rewrite Z; exact I].
  apply agrees_ret in Z. destruct Z as (y & -> & h1 & c1 & w1 & evs & -> & Z1 & Z2 & Z3 & Z4 & Z5 & Z6 & Z7). cbn [fst snd obind after] in *.
  assert (VE : exists f l, vrerr e = WErr f l) by (destruct e as [e|]; [apply vio_some|cbn; eauto]).
  destruct VE as (f & l & Ev). rewrite Ev. cbn [finish]. gor. rewrite <- Ev.
  exists h1, c1, w1, evs. split; [reflexivity|]. split; [rewrite Z7; [exact Hc|rewrite app_length; unfold sc; cbn; lia]|].
  repeat (split; [assumption|]). intros i Hi. rewrite Z7 by (rewrite app_length; lia). apply nth_error_app1. exact Hi.
Qed.
Lemma reads_total n s acc : conn_ok C -> reads n s acc <> Panic.
Proof.
  intros OK. revert s acc. induction n as [|n IH]; intros s acc; [discriminate|]. cbn [reads].
  assert (NP : forall s k a, read_full N C s k a <> Panic).
  { clear - OK. intros s k. revert s k. induction N as [|n IH]; intros s k a; [discriminate|]. cbn [read_full]. destruct k as [|k]; [discriminate|].
    destruct (c_read C s (Datatypes.S k)) as [[s1 d] e] eqn:E. rewrite (proj2 (Nat.ltb_ge _ _)) by exact (OK _ _ _ _ _ E). cbv zeta.
    destruct e; [|apply IH]. destruct (Datatypes.S k - List.length d)%nat; discriminate. }
  destruct (read_full N C s 4 []) as [[[s1 hd] e]| |] eqn:E; cbn [obind]; [|elim (NP _ _ _ E)|discriminate]. destruct e; [discriminate|]. cbv zeta.
  destruct (_ =? 0); [discriminate|].
  destruct (read_full N C s1 _ []) as [[[s2 bf] e]| |] eqn:E2; cbn [obind]; [|elim (NP _ _ _ E2)|discriminate]. destruct e; [discriminate|]. apply IH.
Qed.
(** What a finished Run has done, against [run_loop]. *)
Definition ran (h : heap) (cs : list gv) (w : world S U) (top : nat) (x : S * list (list byte) * runerr) (y : mem (world S U) * list gv) : Prop :=
  exists h' cs' w' evs, y = (mkMem h' cs' w', [vrerr (snd x)]) /\
    nth_error cs' (List.length cs) = Some (gsconn top) /\
    w_conn w' = fst (fst x) /\ w_user w' = w_user w /\ w_objs w' = w_objs w /\ w_log w' = w_log w ++ evs /\
    Forall2 (started (List.length cs)) (snd (fst x)) evs /\
    differs_at anywhere h h' /\ (forall i, (i < List.length cs)%nat -> nth_error cs' i = nth_error cs i).
Lemma Run_text k h cs w top : let go := Run (Datatypes.S (Datatypes.S (Datatypes.S k))) "Server.Run" [WPtr top; WObj rw] (mkMem h cs w) in
  (forall n x, (n <= N)%nat -> (n <= Datatypes.S (Datatypes.S k))%nat -> run_loop n C (w_conn w) [] = Ret x -> exists y, go = Ret y /\ ran h cs w top x y) /\
  (forall y, go = Ret y -> exists x, run_loop (Datatypes.S (Datatypes.S k) + N) C (w_conn w) [] = Ret x /\ ran h cs w top x y) /\
  (conn_ok C -> go <> Panic).
Proof.
  intros go. pose proof (Run_reads k h cs w top) as Z. fold go in Z. clearbody go. split; [|split].
  - intros n x H1 H2 H. rewrite (reads_ret _ _ _ _ _ H2 H1 H) in Z. apply agrees_ret in Z. exact Z.
  - intros y ->. destruct (reads _ _ _) as [x| |] eqn:E; [|contradiction..]. exists x. split; [apply ret_reads; exact E|exact Z].
  - intros OK ->. destruct (reads _ _ _) eqn:E; try contradiction. elim (reads_total _ _ _ OK E).
Qed.
End Server.
