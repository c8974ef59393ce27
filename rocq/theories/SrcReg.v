(** /repo/rfc1057/server.go:43-67, as its text says, computes what Server.v says: the table of handlers. *)
From Verif Require Import GoLex SrcAst SrcProg.
From Verif Require Import Bytes XdrLib Types Interp Heap HeapP HeapX RpcTypes Io Client Server SrcSem SrcLib SrcLibB SrcLibC SrcRpc SrcMsg SrcCli.
Open Scope string_scope.
Open Scope Z_scope.
Open Scope list_scope.

Local Strategy expand [obind].
Local Strategy opaque [run].

(** ** The table in memory *)
(** What a cell is for: the Server, its map, the map of a program, the map of a version. *)
Inductive node : Type := NTop | NRoot | NProg (k : Z) | NVers (k v : Z).
(** Cell [m] is a map with the entries [f]. *)
Definition ents (cs : list gv) (m : nat) (f : Z -> option gv) : Prop := exists l, nth_error cs m = Some (WEnts l) /\ forall k, zassoc k l = f k.

Section Table.
Context {U : Type}.
Variable hs : nat -> handler U.
(** A handler as a value. *)
Definition is_handler (h : option (handler U)) (v : gv) : Prop :=
  match h with Some h => exists i, v = WObj i /\ h = hs i | None => v = WNil end.
Definition entry (h : option (option (handler U))) (v : option gv) : Prop :=
  match h, v with Some h, Some v => is_handler h v | None, None => True | _, _ => False end.
(** The Server at [top] has the handlers [srv].  Its map is cell [m0], the map of program [k] is cell [A k], that of version [v] of it is
    cell [B k v]; [own] says what each of these cells is for, so they are different. *)
Definition srv_rep (cs : list gv) (own : nat -> option node) (top m0 : nat) (A : Z -> option nat) (B : Z -> Z -> option nat) (srv : server U) : Prop :=
  nth_error cs top = Some (WStruct "Server" [("handlers", WMap m0)]) /\ own top = Some NTop /\
  ents cs m0 (fun k => option_map WMap (A k)) /\ own m0 = Some NRoot /\
  (forall k m, A k = Some m -> own m = Some (NProg k)) /\
  (forall k v m, B k v = Some m -> own m = Some (NVers k v)) /\
  forall k, match srv k with
            | None => A k = None /\ forall v, B k v = None
            | Some vm => exists m1, A k = Some m1 /\ ents cs m1 (fun v => option_map WMap (B k v)) /\
                forall v, match vm v with
                          | None => B k v = None
                          | Some pm => exists m2 f, B k v = Some m2 /\ ents cs m2 f /\ forall p, entry (pm p) (f p)
                          end
            end.
Definition srv_at (cs : list gv) (own : nat -> option node) (top : nat) (srv : server U) : Prop :=
  exists m0 A B, srv_rep cs own top m0 A B srv.

(** Same entries. *)
Definition same_srv (s s' : server U) : Prop :=
  forall k, match s k, s' k with
            | None, None => True
            | Some vm, Some vm' => forall v, match vm v, vm' v with
                                             | None, None => True
                                             | Some pm, Some pm' => forall p, pm p = pm' p
                                             | _, _ => False
                                             end
            | _, _ => False
            end.
Lemma srv_rep_same cs own top m0 A B s s' : same_srv s s' -> srv_rep cs own top m0 A B s -> srv_rep cs own top m0 A B s'.
Proof.
  intros H (T & OT & R & OR & OA & OB & K). do 6 (split; [assumption|]). intros k. specialize (H k). specialize (K k).
  destruct (s k) as [vm|], (s' k) as [vm'|]; try contradiction; [|exact K].
  destruct K as (m1 & K1 & K2 & K3). exists m1. split; [exact K1|]. split; [exact K2|]. intros v. specialize (H v). specialize (K3 v).
  destruct (vm v) as [pm|], (vm' v) as [pm'|]; try contradiction; [|exact K3].
  destruct K3 as (m2 & f & K3 & K4 & K5). exists m2, f. split; [exact K3|]. split; [exact K4|]. intros p. rewrite <- H. apply K5.
Qed.

Lemma ents_lt cs m f : ents cs m f -> (m < List.length cs)%nat.
Proof. intros (l & E & _). apply nth_error_Some. congruence. Qed.
Lemma rep_A cs own top m0 A B s k m : srv_rep cs own top m0 A B s -> A k = Some m -> (m < List.length cs)%nat.
Proof.
  intros (T & OT & R & OR & OA & OB & K) H. specialize (K k). destruct (s k) as [vm|]; [|destruct K; congruence].
  destruct K as (m1 & K1 & K2 & _). apply ents_lt in K2. congruence.
Qed.
Lemma rep_B cs own top m0 A B s k v m : srv_rep cs own top m0 A B s -> B k v = Some m -> (m < List.length cs)%nat.
Proof.
  intros (T & OT & R & OR & OA & OB & K) H. specialize (K k). destruct (s k) as [vm|]; [|destruct K as [_ K]; congruence].
  destruct K as (m1 & K1 & K2 & K). specialize (K v). destruct (vm v); [|congruence]. destruct K as (m2 & f & K3 & K4 & _). apply ents_lt in K4. congruence.
Qed.
Lemma ents_keep cs cs' m f : ents cs m f -> nth_error cs' m = nth_error cs m -> ents cs' m f.
Proof. intros (l & E & K) H. exists l. rewrite H. auto. Qed.
(** The cells of the table that are kept, with what they are for, keep the table. *)
Lemma srv_rep_frame cs cs' own own' top m0 A B s :
  (forall q, own q <> None -> (q < List.length cs)%nat -> nth_error cs' q = nth_error cs q) ->
  (forall q, own q <> None -> (q < List.length cs)%nat -> own' q = own q) ->
  srv_rep cs own top m0 A B s -> srv_rep cs' own' top m0 A B s.
Proof.
  intros H Ho R0. pose proof (fun k m => rep_A _ _ _ _ _ _ _ k m R0) as LA. pose proof (fun k v m => rep_B _ _ _ _ _ _ _ k v m R0) as LB.
  destruct R0 as (T & OT & R & OR & OA & OB & K).
  assert (Lt : (top < List.length cs)%nat) by (apply nth_error_Some; congruence). pose proof (ents_lt _ _ _ R) as L0.
  split; [rewrite H by (auto; congruence); exact T|]. split; [rewrite Ho by (auto; congruence); exact OT|].
  split; [eapply ents_keep; [exact R|]; apply H; auto; congruence|]. split; [rewrite Ho by (auto; congruence); exact OR|].
  split; [intros k m E; pose proof (OA _ _ E); rewrite Ho by (eauto; congruence); eauto|].
  split; [intros k v m E; pose proof (OB _ _ _ E); rewrite Ho by (eauto; congruence); eauto|].
  intros k. specialize (K k). destruct (s k) as [vm|]; [|exact K]. destruct K as (m1 & K1 & K2 & K).
  exists m1. split; [exact K1|]. split; [eapply ents_keep; [exact K2|]; pose proof (OA _ _ K1); apply H; eauto; congruence|].
  intros v. specialize (K v). destruct (vm v) as [pm|]; [|exact K]. destruct K as (m2 & f & K3 & K4 & K5).
  exists m2, f. split; [exact K3|]. split; [eapply ents_keep; [exact K4|]; pose proof (OB _ _ _ K3); apply H; eauto; congruence|exact K5].
Qed.

Lemma zassoc_cons k v l k' : zassoc k' ((k, v) :: l) = if k =? k' then Some v else zassoc k' l.
Proof. unfold zassoc. cbn [find fst]. destruct (k =? k'); reflexivity. Qed.
Definition upd2 (B : Z -> Z -> option nat) (k v : Z) (n : nat) : Z -> Z -> option nat :=
  fun k' v' => if (k' =? k) && (v' =? v) then Some n else B k' v'.
Definition own_new (own : nat -> option node) (n : nat) (x : node) : nat -> option node := fun q => if Nat.eqb q n then Some x else own q.
Lemma own_new_old own n x q : q <> n -> own_new own n x q = own q.
Proof. intros H. unfold own_new. rewrite (proj2 (Nat.eqb_neq _ _) H). reflexivity. Qed.
Lemma own_new_new own n x : own_new own n x n = Some x.
Proof. unfold own_new. rewrite Nat.eqb_refl. reflexivity. Qed.

(** Line 52: a new map of versions. *)
Lemma add_prog cs own top m0 A B srv k l : srv_rep cs own top m0 A B srv -> srv k = None -> nth_error cs m0 = Some (WEnts l) ->
  srv_rep (set_nth (cs ++ [WEnts []]) m0 (WEnts ((k, WMap (List.length cs)) :: l))) (own_new own (List.length cs) (NProg k))
    top m0 (upd A k (List.length cs)) B (upd srv k (fun _ => None)).
Proof.
  intros R0 Hk Hl. pose proof (fun k m => rep_A _ _ _ _ _ _ _ k m R0) as LA. pose proof (fun k v m => rep_B _ _ _ _ _ _ _ k v m R0) as LB.
  destruct R0 as (T & OT & R & OR & OA & OB & K).
  assert (Lt : (top < List.length cs)%nat) by (apply nth_error_Some; congruence). pose proof (ents_lt _ _ _ R) as L0.
  set (n := List.length cs) in *. assert (Ln : n = List.length cs) by reflexivity.
  assert (N0 : top <> m0) by congruence.
  assert (KEEP : forall q f, ents cs q f -> q <> m0 -> ents (set_nth (cs ++ [WEnts []]) m0 (WEnts ((k, WMap n) :: l))) q f).
  { intros q f E Hq. pose proof (ents_lt _ _ _ E). eapply ents_keep; [exact E|]. rewrite get_other by congruence. apply nth_error_app1. lia. }
  split; [look; reflexivity|]. split; [rewrite own_new_old by lia; exact OT|].
  split.
  { eexists. split; [look; reflexivity|]. intros k'. rewrite zassoc_cons. unfold upd. rewrite Z.eqb_sym. destruct (k' =? k); [reflexivity|].
    destruct R as (l' & E & R). replace l with l' by congruence. apply R. }
  split; [rewrite own_new_old by lia; exact OR|].
  split.
  { intros k' m E. unfold upd in E. destruct (k' =? k) eqn:Ek.
    - injection E as <-. apply Z.eqb_eq in Ek. subst k'. apply own_new_new.
    - rewrite own_new_old by (specialize (LA _ _ E); lia). auto. }
  split; [intros k' v m E; rewrite own_new_old by (specialize (LB _ _ _ E); lia); auto|].
  intros k'. unfold upd. destruct (k' =? k) eqn:Ek.
  - apply Z.eqb_eq in Ek. subst k'. specialize (K k). rewrite Hk in K. destruct K as [KA KB].
    exists n. split; [reflexivity|]. split; [exists []; split; [look; reflexivity|]; intros v; rewrite KB; reflexivity|]. exact KB.
  - specialize (K k'). destruct (srv k') as [vm|]; [|exact K]. destruct K as (m1 & K1 & K2 & K).
    pose proof (OA _ _ K1). exists m1. split; [exact K1|]. split; [apply KEEP; [exact K2|congruence]|].
    intros v. specialize (K v). destruct (vm v) as [pm|]; [|exact K]. destruct K as (m2 & f & K3 & K4 & K5). pose proof (OB _ _ _ K3).
    exists m2, f. split; [exact K3|]. split; [apply KEEP; [exact K4|congruence]|exact K5].
Qed.
(** Line 57: a new map of procedures. *)
Lemma add_vers cs own top m0 A B srv k vm v m1 l : srv_rep cs own top m0 A B srv -> srv k = Some vm -> vm v = None -> A k = Some m1 ->
  nth_error cs m1 = Some (WEnts l) ->
  srv_rep (set_nth (cs ++ [WEnts []]) m1 (WEnts ((v, WMap (List.length cs)) :: l))) (own_new own (List.length cs) (NVers k v))
    top m0 A (upd2 B k v (List.length cs)) (upd srv k (upd vm v (fun _ => None))).
Proof.
  intros R0 Hk Hv Hm Hl. pose proof (fun k m => rep_A _ _ _ _ _ _ _ k m R0) as LA. pose proof (fun k v m => rep_B _ _ _ _ _ _ _ k v m R0) as LB.
  destruct R0 as (T & OT & R & OR & OA & OB & K). pose proof (OA _ _ Hm) as O1. pose proof (LA _ _ Hm) as L1.
  assert (Lt : (top < List.length cs)%nat) by (apply nth_error_Some; congruence). pose proof (ents_lt _ _ _ R) as L0.
  set (n := List.length cs) in *. assert (Ln : n = List.length cs) by reflexivity.
  assert (N0 : top <> m1) by congruence.
  assert (KEEP : forall q f, ents cs q f -> q <> m1 -> ents (set_nth (cs ++ [WEnts []]) m1 (WEnts ((v, WMap n) :: l))) q f).
  { intros q f E Hq. pose proof (ents_lt _ _ _ E). eapply ents_keep; [exact E|]. rewrite get_other by congruence. apply nth_error_app1. lia. }
  split; [look; reflexivity|]. split; [rewrite own_new_old by lia; exact OT|].
  split; [apply KEEP; [exact R|congruence]|].
  split; [rewrite own_new_old by lia; exact OR|].
  split; [intros k' m E; rewrite own_new_old by (specialize (LA _ _ E); lia); auto|].
  split.
  { intros k' v' m E. unfold upd2 in E. destruct ((k' =? k) && (v' =? v)) eqn:Ek.
    - injection E as <-. apply andb_prop in Ek. destruct Ek as [Ek Ev]. apply Z.eqb_eq in Ek, Ev. subst k' v'. apply own_new_new.
    - rewrite own_new_old by (specialize (LB _ _ _ E); lia). auto. }
  intros k'. unfold upd. specialize (K k'). destruct (k' =? k) eqn:Ek.
  - apply Z.eqb_eq in Ek. subst k'. rewrite Hk in K. destruct K as (m1' & K1 & K2 & K). replace m1' with m1 in * by congruence. clear m1' K1.
    exists m1. split; [exact Hm|]. split.
    + eexists. split; [look; reflexivity|]. intros v'. rewrite zassoc_cons. unfold upd2. rewrite Z.eqb_refl, Z.eqb_sym. cbn [andb].
      destruct (v' =? v); [reflexivity|]. destruct K2 as (l' & E & K2). replace l with l' by congruence. apply K2.
    + intros v'. specialize (K v'). unfold upd2. rewrite Z.eqb_refl. cbn [andb]. destruct (v' =? v) eqn:Ev.
      * apply Z.eqb_eq in Ev. subst v'. exists n, (fun _ => None). split; [reflexivity|]. split; [exists []; split; [look; reflexivity|reflexivity]|].
        intros p. exact I.
      * destruct (vm v') as [pm|]; [|exact K]. destruct K as (m2 & f & K3 & K4 & K5). pose proof (OB _ _ _ K3).
        exists m2, f. split; [exact K3|]. split; [apply KEEP; [exact K4|congruence]|exact K5].
  - unfold upd2. rewrite Ek. cbn [andb]. destruct (srv k') as [vm'|]; [|exact K]. destruct K as (m1' & K1 & K2 & K). pose proof (OA _ _ K1) as O1'.
    assert (m1' <> m1) by (intros ->; rewrite O1 in O1'; injection O1' as ->; rewrite Z.eqb_refl in Ek; discriminate).
    exists m1'. split; [exact K1|]. split; [apply KEEP; [exact K2|assumption]|].
    intros v'. specialize (K v'). destruct (vm' v') as [pm|]; [|exact K]. destruct K as (m2 & f & K3 & K4 & K5). pose proof (OB _ _ _ K3).
    exists m2, f. split; [exact K3|]. split; [apply KEEP; [exact K4|congruence]|exact K5].
Qed.
(** Line 60: the handler. *)
Lemma add_proc cs own top m0 A B srv k vm v pm p h hv m2 l : srv_rep cs own top m0 A B srv -> srv k = Some vm -> vm v = Some pm -> B k v = Some m2 ->
  nth_error cs m2 = Some (WEnts l) -> is_handler h hv ->
  srv_rep (set_nth cs m2 (WEnts ((p, hv) :: l))) own top m0 A B (upd srv k (upd vm v (upd pm p h))).
Proof.
  intros R0 Hk Hv Hm Hl Hh. pose proof (rep_B _ _ _ _ _ _ _ k v m2 R0 Hm) as L2.
  destruct R0 as (T & OT & R & OR & OA & OB & K). pose proof (OB _ _ _ Hm) as O2.
  assert (KEEP : forall q f, ents cs q f -> q <> m2 -> ents (set_nth cs m2 (WEnts ((p, hv) :: l))) q f).
  { intros q f E Hq. eapply ents_keep; [exact E|]. apply get_other. congruence. }
  assert (N0 : top <> m2) by congruence. assert (N1 : m0 <> m2) by congruence.
  split; [rewrite get_other by congruence; exact T|]. split; [exact OT|]. split; [apply KEEP; assumption|]. do 3 (split; [assumption|]).
  intros k'. unfold upd. specialize (K k'). destruct (k' =? k) eqn:Ek.
  - apply Z.eqb_eq in Ek. subst k'. rewrite Hk in K. destruct K as (m1 & K1 & K2 & K). pose proof (OA _ _ K1).
    exists m1. split; [exact K1|]. split; [apply KEEP; [exact K2|congruence]|].
    intros v'. specialize (K v'). destruct (v' =? v) eqn:Ev.
    + apply Z.eqb_eq in Ev. subst v'. rewrite Hv in K. destruct K as (m2' & f & K3 & K4 & K5). replace m2' with m2 in * by congruence. clear m2' K3.
      exists m2, (fun p' => if p' =? p then Some hv else f p'). split; [exact Hm|]. split.
      * eexists. split; [apply get_set; exact L2|]. intros p'. rewrite zassoc_cons, Z.eqb_sym. destruct (p' =? p); [reflexivity|].
        destruct K4 as (l' & E & K4). replace l with l' by congruence. apply K4.
      * intros p'. destruct (p' =? p); [exact Hh|apply K5].
    + destruct (vm v') as [pm'|]; [|exact K]. destruct K as (m2' & f & K3 & K4 & K5). pose proof (OB _ _ _ K3) as O2'.
      assert (m2' <> m2) by (intros ->; rewrite O2 in O2'; injection O2' as ->; rewrite Z.eqb_refl in Ev; discriminate).
      exists m2', f. split; [exact K3|]. split; [apply KEEP; assumption|exact K5].
  - destruct (srv k') as [vm'|]; [|exact K]. destruct K as (m1 & K1 & K2 & K). pose proof (OA _ _ K1).
    exists m1. split; [exact K1|]. split; [apply KEEP; [exact K2|congruence]|].
    intros v'. specialize (K v'). destruct (vm' v') as [pm'|]; [|exact K]. destruct K as (m2' & f & K3 & K4 & K5). pose proof (OB _ _ _ K3) as O2'.
    assert (m2' <> m2) by (intros ->; rewrite O2 in O2'; injection O2' as -> _; rewrite Z.eqb_refl in Ek; discriminate).
    exists m2', f. split; [exact K3|]. split; [apply KEEP; assumption|exact K5].
Qed.
End Table.

Section Text.
Context {S U : Type}.
Variable grow : nat -> nat -> nat.
Variable hs : nat -> handler U.
Variable ext : string -> list gv -> mem (world S U) -> outcome (mem (world S U) * list gv).
Notation Run := (rpc_run grow ext).
Notation srv_rep := (srv_rep hs).
Notation srv_at := (srv_at hs).

(** server.go:43-47 *)
Lemma f_MakeServer : find_fun rpc_pkg "MakeServer" = Some ([], [EUn "*" (EId "Server")], fbody server_MakeServer).
Proof. reflexivity. Qed.
Lemma MakeServer_text n h cs w : exists cs' own,
  Run (Datatypes.S n) "MakeServer" [] (mkMem h cs w) = Ret (mkMem h cs' w, [WPtr (Datatypes.S (List.length cs))]) /\
  srv_at cs' own (Datatypes.S (List.length cs)) MakeServer /\
  forall q, (q < List.length cs)%nat -> own q = None /\ nth_error cs' q = nth_error cs q.
Proof.
  exists ((cs ++ [WEnts []]) ++ [WStruct "Server" [("handlers", WMap (List.length cs))]]).
  exists (own_new (own_new (fun _ => None) (List.length cs) NRoot) (Datatypes.S (List.length cs)) NTop).
  split; [unfold rpc_run; enter f_MakeServer; unfold fbody, server_MakeServer; step; step; cbn [finish]; gor; rewrite app_length; cbn [List.length]; rewrite Nat.add_1_r; reflexivity|].
  split.
  - exists (List.length cs), (fun _ => None), (fun _ _ => None). split; [look; reflexivity|]. split; [apply own_new_new|].
    split; [exists []; split; [look; reflexivity|reflexivity]|]. split; [rewrite own_new_old by lia; apply own_new_new|].
    split; [discriminate|]. split; [discriminate|]. intros k. cbn. auto.
  - intros q Hq. rewrite !own_new_old by lia. look. auto.
Qed.

(** server.go:49-61 *)
Lemma f_Register : find_fun rpc_pkg "Server.Register" =
  Some ([("s", EUn "*" (EId "Server")); ("prog", EId "uint32"); ("vers", EId "uint32"); ("proc", EId "uint32"); ("handler", EId "ProcHandler")], [], fbody server_Server_Register).
Proof. reflexivity. Qed.
(** What is left of Register after its first [k] statements. *)
Definition reg_cont (n k : nat) (m : mem (world S U)) (en : genv) : outcome (mem (world S U) * list gv) :=
  obind (exec_body grow rpc_pkgs rpc_consts rpc_structs (run grow rpc_pkgs rpc_consts rpc_structs rpc_pkg ext n) n None (skipn k (fbody server_Server_Register)) m en) (finish []).
Lemma reg_cont_eq n k m en b : skipn k (fbody server_Server_Register) = b ->
  reg_cont n k m en = obind (exec_body grow rpc_pkgs rpc_consts rpc_structs (run grow rpc_pkgs rpc_consts rpc_structs rpc_pkg ext n) n None b m en) (finish []).
Proof. intros <-. reflexivity. Qed.
Ltac rresume := erewrite reg_cont_eq by (cbv [skipn fbody server_Server_Register]; reflexivity).

Definition kept (cs : list gv) (own : nat -> option node) cs' (own' : nat -> option node) : Prop :=
  (List.length cs <= List.length cs')%nat /\
  forall q, (q < List.length cs)%nat -> own' q = own q /\ (own q = None -> nth_error cs' q = nth_error cs q).
Lemma kept_trans a oa b ob c oc : kept a oa b ob -> kept b ob c oc -> kept a oa c oc.
Proof.
  intros [L K] [L' K']. split; [lia|]. intros q Hq. destruct (K q Hq) as [A B], (K' q ltac:(lia)) as [A' B']. split; [congruence|].
  intros Ho. rewrite B', B by congruence. reflexivity.
Qed.

Lemma reg3 n h cs w own top m0 A B srv prog vers proc hd hv vm pm vo po : srv_rep cs own top m0 A B srv -> is_handler hs hd hv ->
  srv prog = Some vm -> vm vers = Some pm ->
  exists cs', reg_cont n 4 (mkMem h cs w) [("versok", vo); ("progok", po); ("s", WPtr top); ("prog", WNum "uint32" prog); ("vers", WNum "uint32" vers); ("proc", WNum "uint32" proc); ("handler", hv)] =
    Ret (mkMem h cs' w, []) /\
  srv_rep cs' own top m0 A B (upd srv prog (upd vm vers (upd pm proc hd))) /\ kept cs own cs' own.
Proof.
  intros R0 Hh Hk Hv. pose proof R0 as (T & OT & (l0 & E0 & R) & OR & OA & OB & K). specialize (K prog). rewrite Hk in K.
  destruct K as (m1 & K1 & (l1 & E1 & K2) & K). specialize (K vers). rewrite Hv in K. destruct K as (m2 & f & K3 & (l2 & E2 & K4) & K5).
  specialize (R prog). rewrite K1 in R. specialize (K2 vers). rewrite K3 in K2. cbn [option_map] in R, K2.
  exists (set_nth cs m2 (WEnts ((proc, hv) :: l2))). split; [|split].
  - rresume. destruct hd as [hd|]; [destruct Hh as (i & -> & _)|cbn in Hh; subst hv]; step; rewrite R; gor; rewrite K2; gor; step; cbn [finish]; reflexivity.
  - eapply add_proc; eassumption.
  - split; [rewrite set_nth_len; lia|]. intros q Hq. split; [reflexivity|]. intros Ho. apply get_other. specialize (OB _ _ _ K3). congruence.
Qed.

Lemma same_refl (s : server U) : same_srv s s.
Proof. intros k. destruct (s k) as [vm|]; [|exact I]. intros v. destruct (vm v); [reflexivity|exact I]. Qed.
Lemma reg2 n h cs w own top m0 A B srv prog vers proc hd hv vm po : srv_rep cs own top m0 A B srv -> is_handler hs hd hv ->
  srv prog = Some vm ->
  exists cs' own', reg_cont n 2 (mkMem h cs w) [("progok", po); ("s", WPtr top); ("prog", WNum "uint32" prog); ("vers", WNum "uint32" vers); ("proc", WNum "uint32" proc); ("handler", hv)] =
    Ret (mkMem h cs' w, []) /\
  srv_at cs' own' top (Register srv prog vers proc hd) /\ kept cs own cs' own'.
Proof.
  intros R0 Hh Hk. pose proof R0 as (T & OT & (l0 & E0 & R) & OR & OA & OB & K). specialize (K prog). rewrite Hk in K.
  destruct K as (m1 & K1 & (l1 & E1 & K2) & K). specialize (K vers).
  specialize (R prog). rewrite K1 in R. specialize (K2 vers). cbn [option_map] in R.
  assert (L1 : (m1 < List.length cs)%nat) by (apply nth_error_Some; congruence).
  assert (N01 : m0 <> m1) by (specialize (OA _ _ K1); congruence).
  assert (N0t : m0 <> top) by congruence. assert (Lt : (top < List.length cs)%nat) by (apply nth_error_Some; congruence).
  assert (L0 : (m0 < List.length cs)%nat) by (apply nth_error_Some; congruence).
  rresume. step. rewrite R. gor. rewrite K2. destruct (vm vers) as [pm|] eqn:Hv.
  - destruct K as (m2 & f & K3 & _). rewrite K3. cbn [option_map]. gor. step. step.
    destruct (reg3 n h cs w own top m0 A B srv prog vers proc hd hv vm pm (WBool true) po R0 Hh Hk Hv) as (cs' & X & Y & Z).
    erewrite reg_cont_eq in X by (cbv [skipn fbody server_Server_Register]; reflexivity).
    rewrite body_cons in X by reflexivity. exists cs', own. split; [exact X|]. split; [|exact Z].
    exists m0, A, B. unfold Register. rewrite Hk, Hv. exact Y.
  - rewrite K. cbn [option_map]. gor. step. rewrite R. gor. rewrite after_next.
    set (c1 := set_nth (cs ++ [WEnts []]) m1 (WEnts ((vers, WMap (List.length cs)) :: l1))).
    pose proof (add_vers _ _ _ _ _ _ _ _ _ _ _ _ _ R0 Hk Hv K1 E1) as R1. fold c1 in R1.
    destruct (reg3 n h c1 w _ top m0 _ _ _ prog vers proc hd hv (upd vm vers (fun _ => None)) (fun _ => None) (WBool false) po R1 Hh) as (cs' & X & Y & Z).
    { unfold upd. rewrite Z.eqb_refl. reflexivity. }
    { unfold upd. rewrite Z.eqb_refl. reflexivity. }
    erewrite reg_cont_eq in X by (cbv [skipn fbody server_Server_Register]; reflexivity).
    eexists cs', _. split; [exact X|]. split.
    + eexists m0, _, _. eapply srv_rep_same; [|exact Y]. unfold Register. rewrite Hk, Hv. clear. intros k. unfold upd.
      destruct (k =? prog); [|apply same_refl]. intros v. destruct (v =? vers); [reflexivity|]. destruct (vm v); [reflexivity|exact I].
    + eapply kept_trans; [|exact Z]. split; [unfold c1; lens|]. intros q Hq. split; [apply own_new_old; lia|]. intros Ho. unfold c1.
      rewrite get_other by (specialize (OA _ _ K1); congruence). apply nth_error_app1. exact Hq.
Qed.
Lemma Register_text n h cs w own top srv prog vers proc hd hv : srv_at cs own top srv -> is_handler hs hd hv ->
  exists cs' own',
  Run (Datatypes.S n) "Server.Register" [WPtr top; WNum "uint32" prog; WNum "uint32" vers; WNum "uint32" proc; hv] (mkMem h cs w) = Ret (mkMem h cs' w, []) /\
  srv_at cs' own' top (Register srv prog vers proc hd) /\ kept cs own cs' own'.
Proof.
  intros (m0 & A & B & R0) Hh.
  pose proof R0 as (T & OT & (l0 & E0 & R) & OR & OA & OB & K). specialize (K prog).
  specialize (R prog). assert (N0t : m0 <> top) by congruence. assert (Lt : (top < List.length cs)%nat) by (apply nth_error_Some; congruence).
  assert (L0 : (m0 < List.length cs)%nat) by (apply nth_error_Some; congruence).
  assert (CO : coerce (EId "ProcHandler") hv = hv) by (destruct hd; [destruct Hh as (i & -> & _)|cbn in Hh; subst hv]; reflexivity).
  unfold rpc_run. erewrite run_call; [|exact f_Register|cbn [bind_params coerce option_map]; rewrite CO; reflexivity].
  unfold fbody, server_Server_Register. step. rewrite R. destruct (srv prog) as [vm|] eqn:Hk.
  - destruct K as (m1 & K1 & _). rewrite K1. cbn [option_map]. gor. step. rewrite after_next.
    destruct (reg2 n h cs w own top m0 A B srv prog vers proc hd hv vm (WBool true) R0 Hh Hk) as (cs' & own' & X & Y & Z).
    erewrite reg_cont_eq in X by (cbv [skipn fbody server_Server_Register]; reflexivity).
    exists cs', own'. split; [exact X|]. split; [exact Y|exact Z].
  - destruct K as [KA KB]. rewrite KA. cbn [option_map]. gor. step. rewrite after_next.
    set (c1 := set_nth (cs ++ [WEnts []]) m0 (WEnts ((prog, WMap (List.length cs)) :: l0))).
    pose proof (add_prog _ _ _ _ _ _ _ _ _ _ R0 Hk E0) as R1. fold c1 in R1.
    destruct (reg2 n h c1 w _ top m0 _ _ _ prog vers proc hd hv (fun _ => None) (WBool false) R1 Hh) as (cs' & own' & X & Y & Z).
    { unfold upd. rewrite Z.eqb_refl. reflexivity. }
    erewrite reg_cont_eq in X by (cbv [skipn fbody server_Server_Register]; reflexivity).
    eexists cs', own'. split; [exact X|]. split.
    + destruct Y as (m0' & A' & B' & Y). exists m0', A', B'. eapply srv_rep_same; [|exact Y]. unfold Register, upd. rewrite Hk, Z.eqb_refl. clear. intros k.
      destruct (k =? prog); [|apply same_refl]. intros v. destruct (v =? vers); [reflexivity|exact I].
    + eapply kept_trans; [|exact Z]. split; [unfold c1; lens|]. intros q Hq. split; [apply own_new_old; lia|]. intros Ho. unfold c1.
      rewrite get_other by congruence. apply nth_error_app1. exact Hq.
Qed.

(** The statements of a block, and loops, outside of [exec]. *)
Notation call_t := (string -> list gv -> mem (world S U) -> outcome (mem (world S U) * list gv)).
Section Loops.
Variable call : call_t.
Notation Exec := (exec grow rpc_pkgs rpc_consts rpc_structs call).
Definition block (n : nat) := fix block (skip : option string) (b : list gs) (m : mem (world S U)) (en : genv) {struct b} : outcome (mem (world S U) * genv * ctl) :=
  match b with
  | [] => Ret (m, en, match skip with Some l => CGoto l | None => CNext end)
  | s :: b =>
      match skip with
      | Some l => match s with SLabel l' => if String.eqb l l' then block None b m en else block skip b m en | _ => block skip b m en end
      | None =>
          '(m, en, c) <- Exec n s m en ;;
          match c with CNext => block None b m en | CGoto l => block (Some l) b m en | CRet vs => Ret (m, en, c) end
      end
  end.
Definition ranges (n : nat) (v : string) (b : list gs) := fix ranges (l : list gv) (m : mem (world S U)) (en : genv) {struct l} : outcome (mem (world S U) * genv * ctl) :=
  match l with
  | [] => Ret (m, en, CNext)
  | w :: l =>
      '(m, en', c) <- block n None b m ((v, w) :: en) ;;
      match c with CNext => ranges l m (leave en en') | _ => Ret (m, leave en en', c) end
  end.
Definition loops (k : nat) (b : list gs) := fix loops (n : nat) (m : mem (world S U)) (en : genv) {struct n} : outcome (mem (world S U) * genv * ctl) :=
  match n with
  | O => NoFuel
  | Datatypes.S n =>
      '(m, en, c) <- ('(m, en', c) <- block k None b m en ;; Ret (m, leave en en', c)) ;;
      match c with CNext => loops n m en | _ => Ret (m, en, c) end
  end.
Lemma exec_range n k v e b m en : Exec n (SRange k v e b) m en =
  obind (eval grow rpc_pkgs rpc_consts rpc_structs call e m en) (fun x => let '(m, w) := x in ranges n v b (many w) m en).
Proof. reflexivity. Qed.
Lemma exec_for n b m en : Exec n (SFor b) m en = loops n b n m en.
Proof. reflexivity. Qed.
End Loops.

(** server.go:63-67 *)
Lemma f_RegisterMany : find_fun rpc_pkg "Server.RegisterMany" =
  Some ([("s", EUn "*" (EId "Server")); ("regs", TSlice (ESel (EId "xdr") "ProcRegistration"))], [], fbody server_Server_RegisterMany).
Proof. reflexivity. Qed.
(** xdr/types.go:24-29 *)
Definition greg (r : registration U) (v : gv) : Prop :=
  exists hv, is_handler hs (rg_handler r) hv /\
  v = WStruct "ProcRegistration" [("Prog", WNum "uint32" (rg_prog r)); ("Vers", WNum "uint32" (rg_vers r)); ("Proc", WNum "uint32" (rg_proc r)); ("Handler", hv)].
Lemma RegisterMany_loop n h w top vr regs vs : Forall2 greg regs vs -> forall cs own srv, srv_at cs own top srv ->
  exists cs' own',
  ranges (run grow rpc_pkgs rpc_consts rpc_structs rpc_pkg ext (Datatypes.S n)) (Datatypes.S n) "r"
    [SExpr (ECall (ESel (EId "s") "Register") [ESel (EId "r") "Prog"; ESel (EId "r") "Vers"; ESel (EId "r") "Proc"; ESel (EId "r") "Handler"] false)]
    vs (mkMem h cs w) [("s", WPtr top); ("regs", vr)] = Ret (mkMem h cs' w, [("s", WPtr top); ("regs", vr)], CNext) /\
  srv_at cs' own' top (RegisterMany srv regs) /\ kept cs own cs' own'.
Proof.
  intros F. induction F as [|r v regs vs (hv & Hh & ->) F IH]; intros cs own srv Hs.
  - exists cs, own. split; [reflexivity|]. split; [exact Hs|]. split; [lia|auto].
  - assert (T : exists m0, nth_error cs top = Some (WStruct "Server" [("handlers", WMap m0)])) by (destruct Hs as (m0 & A & B & T & _); eauto). destruct T as [m0 T].
    destruct (Register_text n h cs w own top srv (rg_prog r) (rg_vers r) (rg_proc r) (rg_handler r) hv Hs Hh) as (c1 & o1 & X & Y & Z).
    destruct (IH c1 o1 _ Y) as (c2 & o2 & X2 & Y2 & Z2). exists c2, o2. split; [|split; [exact Y2|eapply kept_trans; eassumption]].
    cbn [ranges block]. gor. unfold rpc_run in X. rewrite X. gor. exact X2.
Qed.
Lemma RegisterMany_text n h cs w own top srv regs vs : srv_at cs own top srv -> Forall2 greg regs vs ->
  exists cs' own',
  Run (Datatypes.S (Datatypes.S n)) "Server.RegisterMany" [WPtr top; WTup vs] (mkMem h cs w) = Ret (mkMem h cs' w, []) /\
  srv_at cs' own' top (RegisterMany srv regs) /\ kept cs own cs' own'.
Proof.
  intros Hs F. destruct (RegisterMany_loop n h w top (WTup vs) regs vs F cs own srv Hs) as (c1 & o1 & X & Y & Z).
  exists c1, o1. split; [|split; assumption].
  unfold rpc_run; enter f_RegisterMany. unfold fbody, server_Server_RegisterMany. rewrite body_cons by reflexivity. rewrite exec_range.
  gor. rewrite X. gor. rewrite after_next, body_nil. gor. reflexivity.
Qed.
End Text.
