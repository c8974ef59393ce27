(** Examples for SliceText.v. *)
From Verif Require Import SrcLibC.
From Verif Require Import GoLex XLex Gram GParse Emit RepoText Bytes XdrLib Types Interp Meta Spec Check Total Runs GoAst GoSem GoSemH GoSemHP GoSemHM GElab GoPkg GoWf RpcTypes GoRes GSimC GSimD GSimH GenCommitted GenText.
From Verif Require Import Heap HeapP HeapX HeapS HeapQ SrcEnv MsgTextE SliceText.
Open Scope string_scope.
Open Scope Z_scope.
Open Scope list_scope.

(** A call body with two authenticators, one byte into its block; one byte follows. *)
Definition ex_cb : list byte :=
  [xff] ++ zeros 16 ++ [x00; x00; x00; x01; x00; x00; x00; x03; x61; x62; x63; x00] ++ [x00; x00; x00; x00; x00; x00; x00; x04; x64; x65; x66; x67] ++ [x77].
Definition ex_cz : hval := match hzero 20 rpc_env (CIdent "Call_body") with Some z => z | None => HInt 0 end.
Definition ex_cs : hst := mkHst None true (Some (mkSl 0 1 41 41)).
Lemma ex_two_slices : exists P h' s' v', declares "rfc1057" [rfc1057_xdr_go; rfc1057_types_go] P /\
  In "Call_body" (map fst rpc_env) /\ has_ty rpc_env (CIdent "Call_body") (deref [ex_cb] ex_cz) /\ svalid [ex_cb] (mkSl 0 1 41 41) /\ hslices ex_cz = [] /\
  callH (gp_pkg P) exact_grow 30 "Call_body" [ex_cb] (mkHst None true (Some (mkSl 0 1 41 41))) ex_cz = GRet (h', s', v') /\
  h_err s' = None /\ h_buf s' = Some (mkSl 0 41 1 1) /\ hslices v' = [mkSl 0 25 3 3; mkSl 0 37 4 4].
Proof.
  destruct (with_P_ok (fun P => match callH (gp_pkg P) exact_grow 30 "Call_body" [ex_cb] (mkHst None true (Some (mkSl 0 1 41 41))) ex_cz with
      | GRet (h', s', v') => Some (h_err s', h_buf s', hslices v') | _ => None end) None
    (Some (None, Some (mkSl 0 41 1 1), [mkSl 0 25 3 3; mkSl 0 37 4 4]))) as (P & D & R).
  { vm_compute. reflexivity. }
  destruct (callH (gp_pkg P) exact_grow 30 "Call_body" [ex_cb] (mkHst None true (Some (mkSl 0 1 41 41))) ex_cz) as [[[h' s'] v']| | |] eqn:C; try discriminate R.
  injection R as R0 R1 R2. exists P, h', s', v'.
  split; [exact D|]. split; [vm_compute; tauto|]. split; [apply (has_tyb_sound 20); vm_compute; reflexivity|]. split; [vm_compute; lia|]. split; [reflexivity|]. split; [exact C|]. auto.
Qed.

Lemma with_P_S {A} P : spec_prog (make_flags "rfc1057") rfc1057_prot_x = Some (rpc_env, P) -> forall (k : gprog -> A) d v, with_P k d = v -> k P = v.
Proof. intros S k d v. unfold with_P. rewrite S. auto. Qed.
(** Two authenticators written behind one byte, with room for 13 bytes; the second one needs a new block. *)
Definition ex_w2 : hval := HStruct [("Flavor", HInt 0); ("Body", HBytes None)].
Definition ex_w2m : heap :=
  [[x11; x00; x00; x00; x05; x00; x00; x00; x03; x61; x62; x63; x00]; [x61; x62; x63];
   [x11; x00; x00; x00; x05; x00; x00; x00; x03; x61; x62; x63; x00; x00; x00; x00; x00];
   [x11; x00; x00; x00; x05; x00; x00; x00; x03; x61; x62; x63; x00; x00; x00; x00; x00; x00; x00; x00; x00]].
Lemma ex_two_writes : exists P o, ok_flags (make_flags "rfc1057") = true /\ spec_prog (make_flags "rfc1057") rfc1057_prot_x = Some (rpc_env, P) /\
  generate (make_flags "rfc1057") rfc1057_prot_x = Some o /\ declares "rfc1057" (files_of o) P /\
  Forall (fun x => good rfc1813_D rpc_env (CIdent x)) ["Opaque_auth"; "Opaque_auth"] /\ Forall (fun x => lookup x rpc_env <> None) ["Opaque_auth"; "Opaque_auth"] /\
  gvalid ex_amem (Some (mkSl 0 0 1 13)) /\
  Forall2 (fun x v => has_ty rpc_env (CIdent x) (deref ex_amem v) /\ bounded ENC rpc_env (CIdent x) (deref ex_amem v)) ["Opaque_auth"; "Opaque_auth"] [ex_aval; ex_w2] /\
  Forall (fun v => safe ex_amem (mkHst None false (Some (mkSl 0 0 1 13))) v) [ex_aval; ex_w2] /\
  exists h' o', twrites (gp_pkg P) exact_grow ["Opaque_auth"; "Opaque_auth"] [ex_aval; ex_w2] ex_amem (mkHst None false (Some (mkSl 0 0 1 13))) h' (mkHst None false o') /\
    gread h' o' = [x11; x00; x00; x00; x05; x00; x00; x00; x03; x61; x62; x63; x00; x00; x00; x00; x00; x00; x00; x00; x00].
Proof.
  destruct rfc1057_committed as (P & S & D0). destruct (text_declares (make_flags "rfc1057") rfc1057_prot_x rpc_env P) as (o & Gn & D); [vm_compute; reflexivity|exact S|].
  exists P, o. split; [vm_compute; reflexivity|]. split; [exact S|]. split; [exact Gn|]. split; [exact D|].
  assert (I : In "Opaque_auth" (map fst rpc_env)) by (vm_compute; tauto).
  pose proof (rfc1057_good _ I) as Gd. assert (L : lookup "Opaque_auth" rpc_env <> None) by (vm_compute; discriminate).
  split; [apply Forall_cons; [exact Gd|]; apply Forall_cons; [exact Gd|]; apply Forall_nil|]. split; [apply Forall_cons; [exact L|]; apply Forall_cons; [exact L|]; apply Forall_nil|]. split; [vm_compute; lia|].
  split; [|split].
  - assert (B : forall v z o', deref ex_amem v = VStruct [("Flavor", VInt z); ("Body", VBytes o')] -> (List.length (bytes_of o') <= 400)%nat -> bounded ENC rpc_env (CIdent "Opaque_auth") (deref ex_amem v)).
    { intros v z o' -> Hl. eapply B_ident; [reflexivity|]. apply B_struct. eapply BF_cons; [reflexivity| |].
      - eapply B_ident; [reflexivity|]. constructor.
      - eapply BF_cons; [reflexivity| |constructor]. apply B_varopaque. unfold within, zlen. lia. }
    apply Forall2_cons; [|apply Forall2_cons; [|apply Forall2_nil]]; (split; [apply (has_tyb_sound 20); vm_compute; reflexivity|]).
    + eapply B; [reflexivity|]. cbn. lia.
    + eapply B; [reflexivity|]. cbn. lia.
  - apply Forall_cons; [|apply Forall_cons; [|apply Forall_nil]]; [|apply Forall_nil]. apply Forall_cons; [|apply Forall_nil]. split; [vm_compute; lia|]. intros _ i Hi [Hc _]. discriminate Hc.
  - exists ex_w2m, (Some (mkSl 3 0 21 21)).
    split; [|reflexivity].
    assert (W1 : callH (gp_pkg P) exact_grow 30 "Opaque_auth" ex_amem (mkHst None false (Some (mkSl 0 0 1 13))) ex_aval =
      GRet ([[x11; x00; x00; x00; x05; x00; x00; x00; x03; x61; x62; x63; x00]; [x61; x62; x63]], mkHst None false (Some (mkSl 0 0 13 13)), ex_aval)).
    { apply (with_P_S P S (fun P => callH (gp_pkg P) exact_grow 30 "Opaque_auth" ex_amem (mkHst None false (Some (mkSl 0 0 1 13))) ex_aval) GStuck). vm_compute. reflexivity. }
    assert (W2 : exists v', callH (gp_pkg P) exact_grow 30 "Opaque_auth" [[x11; x00; x00; x00; x05; x00; x00; x00; x03; x61; x62; x63; x00]; [x61; x62; x63]] (mkHst None false (Some (mkSl 0 0 13 13))) ex_w2 =
      GRet ([[x11; x00; x00; x00; x05; x00; x00; x00; x03; x61; x62; x63; x00]; [x61; x62; x63]] ++ skipn 2 ex_w2m, mkHst None false (Some (mkSl 3 0 21 21)), v')).
    { exists ex_w2. apply (with_P_S P S (fun P => callH (gp_pkg P) exact_grow 30 "Opaque_auth" [[x11; x00; x00; x00; x05; x00; x00; x00; x03; x61; x62; x63; x00]; [x61; x62; x63]] (mkHst None false (Some (mkSl 0 0 13 13))) ex_w2) GStuck). vm_compute. reflexivity. }
    destruct W2 as (v' & W2).
    eapply TW_cons; [exists 30%nat; intros m Hm; exact (callH_mono _ _ _ _ _ _ _ _ _ Hm W1 ltac:(discriminate))|].
    eapply TW_cons; [exists 30%nat; intros m Hm; exact (callH_mono _ _ _ _ _ _ _ _ _ Hm W2 ltac:(discriminate))|]. apply TW_nil.
Qed.
