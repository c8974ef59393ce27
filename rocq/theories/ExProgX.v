(** The example programs with a portmapper (RFC 1057, appendix A) and a small file system. *)
From Verif Require Import GoLex XLex Gram GParse Emit RepoText GoAst GoText GoTop GoRes GoPkg GoWf.
From Verif Require Import Bytes XdrLib Types Interp Spec Meta Canon Runs Codec Check RpcTypes RpcSpec RpcWire RpcDec Io Client CallSpec ClientP
  Server ServSpec ServerP ServerQ ServerX ServerEx E2E CliEx ReplyQ GoSem GenCommitted GenText GoStub GenStub E2EGen Prog ProgP ExProg ExProgP.
Open Scope string_scope.
Open Scope Z_scope.
Open Scope list_scope.

(** The mappings (program, version, protocol, port) and the directory entries (directory, name, file). *)
Record xw : Type := mkXw { x_map : list (Z * Z * Z * Z); x_dir : list (list byte * list byte * list byte) }.

Definition num (f : string) (v : val) : Z := int_of (fld f v).
Definition bytes (v : val) : list byte := match v with VBytes o => bytes_of o | VStr bs => bs | _ => [] end.
Definition beqb (a b : list byte) : bool := if list_eq_dec Byte.byte_eq_dec a b then true else false.

(** RFC 1057, appendix A: SET refuses when there is a mapping for the program, version and protocol; UNSET drops the mappings
    of the program and version; GETPORT returns 0 when there is none. *)
Definition for_key (prog vers prot : Z) (e : Z * Z * Z * Z) : bool :=
  match e with (a, b, c, _) => (a =? prog) && (b =? vers) && (c =? prot) end.
Definition for_ver (prog vers : Z) (e : Z * Z * Z * Z) : bool := match e with (a, b, _, _) => (a =? prog) && (b =? vers) end.
Definition port_of (l : list (Z * Z * Z * Z)) (prog vers prot : Z) : Z :=
  match find (for_key prog vers prot) l with Some (_, _, _, p) => p | None => 0 end.
Definition word (z : Z) : Z := z mod 2 ^ 32.
Definition pmo : object xw := fun m x w =>
  match x with
  | None => if String.eqb m "PMAPPROC_NULL" then Ret (w, None) else Panic
  | Some a =>
      let '(prog, vers, prot) := (num "Prog" a, num "Vers" a, num "Prot" a) in
      if String.eqb m "PMAPPROC_SET" then
        if existsb (for_key prog vers prot) (x_map w) then Ret (w, Some (VBool false))
        else Ret (mkXw ((prog, vers, prot, num "Port" a) :: x_map w) (x_dir w), Some (VBool true))
      else if String.eqb m "PMAPPROC_UNSET" then
        Ret (mkXw (filter (fun e => negb (for_ver prog vers e)) (x_map w)) (x_dir w), Some (VBool (existsb (for_ver prog vers) (x_map w))))
      else if String.eqb m "PMAPPROC_GETPORT" then Ret (w, Some (VInt (word (port_of (x_map w) prog vers prot))))
      else Panic
  end.

(** A file system: "/" can be mounted; LOOKUP and RENAME on the directory entries. *)
Definition setf (f : string) (x : val) (v : val) : val := match v with VStruct l => VStruct (update f x l) | _ => v end.
Definition zero1813 (T : string) : val := xv_val (var1813 T).
Definition fh (bs : list byte) : val := VStruct [("Data", VBytes (Some bs))].
Definition mnto : object xw := fun m x w =>
  match x with
  | Some a => if String.eqb m "MOUNTPROC3_MNT" then
      Ret (w, Some (if beqb (bytes a) (list_byte_of_string "/")
        then setf "Mountinfo" (VStruct [("Fhandle", VBytes (Some [x01])); ("Auth_flavors", VSlice (Some [VInt 1]))]) (zero1813 "Mountres3")
        else setf "Fhs_status" (VInt 2) (zero1813 "Mountres3")))
      else Panic
  | None => Panic
  end.
Definition entry_at (w : xw) (d n : list byte) : option (list byte) :=
  option_map snd (find (fun e => match e with (d', n', _) => beqb d' d && beqb n' n end) (x_dir w)).
Definition dir_of (a : val) : list byte := bytes (fld "Data" (fld "Dir" a)).
Definition name_of (a : val) : list byte := bytes (fld "Name" a).
Definition nfso : object xw := fun m x w =>
  match x with
  | Some a =>
      if String.eqb m "NFSPROC3_LOOKUP" then
        Ret (w, Some (match entry_at w (dir_of (fld "What" a)) (name_of (fld "What" a)) with
          | Some f => setf "Resok" (setf "Object" (fh f) (zero1813 "LOOKUP3resok")) (zero1813 "LOOKUP3res")
          | None => setf "Status" (VInt 2) (zero1813 "LOOKUP3res")
          end))
      else if String.eqb m "NFSPROC3_RENAME" then
        let '(d, n, d', n') := (dir_of (fld "From" a), name_of (fld "From" a), dir_of (fld "To" a), name_of (fld "To" a)) in
        match entry_at w d n with
        | Some f => Ret (mkXw (x_map w) ((d', n', f) :: filter (fun e => match e with (d0, n0, _) => negb (beqb d0 d && beqb n0 n) end) (x_dir w)),
            Some (zero1813 "RENAME3res"))
        | None => Ret (w, Some (setf "Status" (VInt 2) (zero1813 "RENAME3res")))
        end
      else Panic
  | None => Panic
  end.

(** *** Their methods have the declared types *)
Lemma pmo_ok : obj_ok rpc_env pmo pmap_table.
Proof.
  assert (G : forall x t, Some (CIdent x) = Some t -> goodb 12 12 rpc_env (CIdent x) = true -> exists D, good D rpc_env t) by (intros x t [= <-] H; apply good_rpc; exact H).
  assert (N : forall t, None = Some t -> exists D, good D rpc_env t) by discriminate.
  assert (B : forall b, has_ty rpc_env (CIdent "Xbool") (VBool b)) by (intros b; eapply HT_ident; [look|constructor]).
  assert (U : forall z, has_ty rpc_env (CIdent "Uint32") (VInt (word z))) by (intros z; eapply HT_ident; [look|constructor; unfold word; apply Z.mod_pos_bound; lia]).
  unfold obj_ok, pmap_table, named. repeat constructor; try exact N; try (intros t H; exact (G _ t H eq_refl)).
  all: intros x w w' y H; unfold pmo in H; cbn [String.eqb Ascii.eqb Bool.eqb] in H; destruct x; try discriminate H.
  all: repeat match type of H with context [existsb ?f ?l] => destruct (existsb f l) end; injection H as _ <-; try reflexivity.
  all: eexists; split; [reflexivity|]; auto.
Qed.

Lemma set_fields E fs l f t x : has_fields E fs l -> lookup f fs = Some t -> has_ty E t x -> has_fields E fs (update f x l).
Proof.
  intros H L Hx. induction H as [|g u w fs l Hw Hl IH]; [discriminate|]. cbn in *. destruct (String.eqb f g); [|constructor; auto].
  injection L as <-. constructor; assumption.
Qed.
Lemma set_struct E fs v f t x : has_ty E (CStruct fs) v -> lookup f fs = Some t -> has_ty E t x -> has_ty E (CStruct fs) (setf f x v).
Proof. intros H L Hx. inversion H; subst. constructor. eapply set_fields; eassumption. Qed.
Lemma set_union E sw st arms def v f t x : has_ty E (CUnion sw st arms def) v -> lookup f (union_fields sw st arms def) = Some t -> has_ty E t x ->
  has_ty E (CUnion sw st arms def) (setf f x v).
Proof. intros H L Hx. inversion H; subst. constructor. eapply set_fields; eassumption. Qed.
Lemma zero_ty T t : lookup T rfc1813_env = Some t -> zero rfc1813_D rfc1813_env (CIdent T) <> None -> has_ty rfc1813_env (CIdent T) (zero1813 T).
Proof.
  intros L Z. unfold zero1813, var1813. cbn [xv_val]. destruct (zero rfc1813_D rfc1813_env (CIdent T)) as [z|] eqn:E; [|contradiction].
  exact (fresh_ty _ _ _ (ex_intro _ rfc1813_D E)).
Qed.
Lemma fh_ty bs : has_ty rfc1813_env (CIdent "Nfs_fh3") (fh bs).
Proof. eapply HT_ident; [look|]. repeat constructor. Qed.
Ltac zty := eapply zero_ty; [look|vm_compute; discriminate].
Ltac inty := eapply tyI; [zty|look].
Ltac u2 := eapply HT_ident; [look|constructor; lia].
Lemma ret_snd {A B} (a c : A) (b d : B) : Ret (a, b) = Ret (c, d) -> b = d. Proof. intros [= _ H]. exact H. Qed.
Lemma mnto_ok : obj_ok rfc1813_env mnto mount_table.
Proof.
  assert (G : forall x t, Some (CIdent x) = Some t -> In x (map fst rfc1813_env) -> exists D, good D rfc1813_env t) by (intros x t [= <-] H; eexists; apply rfc1813_good; exact H).
  assert (N : forall t, None = Some t -> exists D, good D rfc1813_env t) by discriminate.
  assert (I : forall x, existsb (String.eqb x) (map fst rfc1813_env) = true -> In x (map fst rfc1813_env)).
  { intros x H. apply existsb_exists in H. destruct H as (y & H & Q). apply String.eqb_eq in Q. subst. exact H. }
  unfold obj_ok, mount_table, named. repeat constructor; try exact N; try (intros t H; apply (G _ t H), I; vm_compute; reflexivity).
  all: intros x w w' y H; unfold mnto in H; cbn [String.eqb Ascii.eqb Bool.eqb] in H; destruct x; try discriminate H.
  apply ret_snd in H; rewrite <- H; clear H. eexists. split; [reflexivity|]. destruct (beqb _ _); (eapply HT_ident; [look|]; eapply set_union; [inty|look|]); [|u2].
  eapply HT_ident; [look|]. repeat econstructor; lia.
Qed.
Lemma nfso_ok : obj_ok rfc1813_env nfso nfs_table.
Proof.
  assert (G : forall x t, Some (CIdent x) = Some t -> In x (map fst rfc1813_env) -> exists D, good D rfc1813_env t) by (intros x t [= <-] H; eexists; apply rfc1813_good; exact H).
  assert (N : forall t, None = Some t -> exists D, good D rfc1813_env t) by discriminate.
  assert (I : forall x, existsb (String.eqb x) (map fst rfc1813_env) = true -> In x (map fst rfc1813_env)).
  { intros x H. apply existsb_exists in H. destruct H as (y & H & Q). apply String.eqb_eq in Q. subst. exact H. }
  unfold obj_ok, nfs_table, named. repeat constructor; try exact N; try (intros t H; apply (G _ t H), I; vm_compute; reflexivity).
  all: intros x w w' y H; unfold nfso in H; cbn [String.eqb Ascii.eqb Bool.eqb] in H; destruct x; try discriminate H.
  - apply ret_snd in H; rewrite <- H; clear H. eexists. split; [reflexivity|]. destruct (entry_at _ _ _); (eapply HT_ident; [look|]; eapply set_union; [inty|look|]); [|u2].
    eapply HT_ident; [look|]. eapply set_struct; [inty|look|apply fh_ty].
  - destruct (entry_at _ _ _); apply ret_snd in H; rewrite <- H; clear H; (eexists; split; [reflexivity|]); [zty|].
    eapply HT_ident; [look|]. eapply set_union; [inty|look|u2].
Qed.

(** *** Applying them *)
Lemma applies_closed {W} E (obj : object W) t k m ta tr args w w' y b z : obj_ok E obj t -> In (k, m, Some ta, Some tr) t ->
  obj m (Some args) w = Ret (w', Some y) -> Encode E tr y b None -> 24 + zlen b < 2 ^ 31 -> fresh E tr z -> Decode E tr b z None y ->
  applies E obj t k args w w' y.
Proof.
  intros Ho Hin Hx He Hb Hz Hd. unfold obj_ok in Ho. rewrite Forall_forall in Ho. destruct (Ho _ Hin) as (_ & G & U).
  destruct (G _ eq_refl) as (D & HE & Ht & Hzz). destruct (U _ _ _ _ Hx) as (v & [= <-] & Hty).
  pose proof (proj1 (Encode_ok_wire D E tr HE Ht y b Hty) He) as Hw. pose proof (proj1 (Wire_bounded ENC E) _ _ _ Hw) as Hbd.
  apply (Applies E obj t k args w w' y m ta tr y Hin Hx Hbd).
  - intros b' Hw'. apply (Encode_ok_wire D E tr HE Ht y b' Hty) in Hw'. destruct (Encode_det _ _ _ _ _ _ _ He Hw') as [<- _]. exact Hb.
  - apply (bounded_same D); [split; auto|exact Hty|exact Hbd].
  - destruct (dec_wire D E tr HE Ht Hzz ENC b [] y z Hw (fresh_ty _ _ _ Hz) (fresh_stale _ _ _ Hz)) as (x & Hr & _). rewrite app_nil_r in Hr.
    assert (x = y) as <-. { apply Decode_runs in Hd. destruct Hd as (s & Hd & _). exact (proj2 (runs_det _ _ _ _ _ _ _ _ Hr Hd)). }
    exact (runs_fresh_canon D E tr HE Ht _ _ _ _ Hz Hr).
  - exact Hty.
Qed.

Lemma applies_word k m w w' args p : In (k, m, Some (CIdent "Mapping"), Some (CIdent "Uint32")) pmap_table -> u32 p ->
  pmo m (Some args) w = Ret (w', Some (VInt p)) -> applies rpc_env pmo pmap_table k args w w' (VInt p).
Proof.
  intros Hin Hp Hx. destruct (arg_ident rpc_env "Uint32" CU32 _ _ eq_refl (arg_u32 rpc_env p Hp)) as (A1 & A2 & A3 & A4).
  apply (Applies rpc_env pmo pmap_table k args w w' (VInt p) _ _ _ _ Hin Hx A3); [| | |].
  - intros b Hb. specialize (A4 _ Hb). lia.
  - destruct (good_rpc "Uint32" eq_refl) as [D G]. exact (bounded_same D _ _ _ G A1 A3).
  - exact A2.
  - exact A1.
Qed.
Lemma applies_bool k m w w' args b : In (k, m, Some (CIdent "Mapping"), Some (CIdent "Xbool")) pmap_table ->
  pmo m (Some args) w = Ret (w', Some (VBool b)) -> applies rpc_env pmo pmap_table k args w w' (VBool b).
Proof.
  intros Hin Hx. destruct b; (eapply (applies_closed rpc_env pmo pmap_table k _ _ _ args w w'); [exact pmo_ok|exact Hin|exact Hx|exists 5%nat; vm_compute; reflexivity|vm_compute; reflexivity|exists 5%nat; vm_compute; reflexivity|exists 5%nat; vm_compute; reflexivity]).
Qed.

Lemma sets_unset prog port w :
  sets pmo false prog port w (mkXw (filter (fun e => negb (for_ver prog 3 e)) (x_map w)) (x_dir w)) (existsb (for_ver prog 3) (x_map w)).
Proof. apply (applies_bool 2 "PMAPPROC_UNSET"); [do 2 right; left; reflexivity|reflexivity]. Qed.
Lemma sets_set prog port w : existsb (for_key prog 3 6) (x_map w) = false ->
  sets pmo true prog port w (mkXw ((prog, 3, 6, port) :: x_map w) (x_dir w)) true.
Proof.
  intros H. apply (applies_bool 1 "PMAPPROC_SET"); [right; left; reflexivity|]. unfold pmo. cbn [String.eqb Ascii.eqb Bool.eqb].
  change (num "Prog" (mapping prog 3 port)) with prog. change (num "Vers" (mapping prog 3 port)) with 3. change (num "Prot" (mapping prog 3 port)) with 6.
  rewrite H. reflexivity.
Qed.
Lemma finds_port (ls : listeners xw) prog vers w p : port_of (x_map w) prog vers 6 = p -> u32 p -> ls p <> None -> finds ls pmo prog vers w w (Some p).
Proof.
  intros E Hp Hl. apply F_found; [|exact Hl]. apply (applies_word 3 "PMAPPROC_GETPORT"); [do 3 right; left; reflexivity|exact Hp|].
  unfold pmo. cbn [String.eqb Ascii.eqb Bool.eqb].
  change (num "Prog" (mapping prog vers 0)) with prog. change (num "Vers" (mapping prog vers 0)) with vers. change (num "Prot" (mapping prog vers 0)) with 6.
  rewrite E. unfold word. rewrite Z.mod_small by exact Hp. reflexivity.
Qed.
Lemma unset_free prog l : existsb (for_key prog 3 6) (filter (fun e => negb (for_ver prog 3 e)) l) = false.
Proof.
  induction l as [|[[[a b] c] d] l IH]; [reflexivity|]. cbn [filter]. destruct (for_ver prog 3 (a, b, c, d)) eqn:E; cbn [negb]; [exact IH|].
  cbn [existsb]. rewrite IH. cbn in *. rewrite E. reflexivity.
Qed.

(** The mappings after the example server has started. *)
Definition served (port : Z) (w : xw) : xw :=
  mkXw ((100003, 3, 6, port) :: (100005, 3, 6, port) ::
    filter (fun e => negb (for_ver 100003 3 e)) (filter (fun e => negb (for_ver 100005 3 e)) (x_map w))) (x_dir w).
Lemma server_starts port w : server_run pmo port w (served port w) Stopped.
Proof.
  eapply SR_serves; [apply sets_unset|apply sets_set; cbn [x_map]; apply unset_free|apply sets_unset|]. cbn [x_map x_dir].
  exact (sets_set 100003 port (mkXw (filter (fun e => negb (for_ver 100003 3 e)) ((100005, 3, 6, port) :: filter (fun e => negb (for_ver 100005 3 e)) (x_map w))) (x_dir w)) (unset_free _ _)).
Qed.
Lemma served_ports port w : port_of (x_map (served port w)) 100005 3 6 = port /\ port_of (x_map (served port w)) 100003 3 6 = port.
Proof. split; reflexivity. Qed.

(** The example server has no procedures: the client's first call to it fails. *)
Lemma client_panics (ls : listeners xw) regs mnt nfs port w : u32 port -> ls port <> None -> regs port = [] ->
  client_run ls regs pmo mnt nfs (served port w) (served port w) Panicked [] [None; Some port].
Proof.
  intros Hp Hl Hr. eapply CR_not_served; [apply finds_port; [reflexivity|exact Hp|exact Hl]|]. rewrite Hr. apply T_prog. intros (r & [] & _).
Qed.
Lemma examples_together (ls : listeners xw) regs ch1 ch2 port w : listening ls regs -> (forall i, chunker (ch1 i)) -> (forall i, chunker (ch2 i)) ->
  offers ls regs 111 rpc_env pmo 100000 2 pmap_table -> u32 port -> ls port = Some MakeServer -> regs port = [] ->
  exists N y1 y2, forall n, (N <= n)%nat ->
    remote n ls ch1 ch2 (ex_server port) (sys0 w) y1 Stopped /\ y_w y1 = served port w /\
    remote n ls ch1 ch2 ex_client (sys0 (y_w y1)) y2 Panicked /\ y_w y2 = y_w y1 /\ y_out y2 = [].
Proof.
  intros HL H1 H2 Ho Hp Hl Hr.
  destruct (transparent0 ls regs ch1 ch2 HL H1 H2 (ex_server port) w _ (direct_server ls regs pmo Ho port w _ _ Hp (server_starts port w))) as (N1 & y1 & r1 & (E1 & -> & _ & _) & R1).
  destruct (transparent0 ls regs ch1 ch2 HL H1 H2 ex_client (served port w) _ (direct_client ls regs pmo mnto nfso Ho _ _ _ _ _ (client_panics ls regs mnto nfso port w Hp ltac:(congruence) Hr))) as (N2 & y2 & r2 & (E2 & -> & E3 & _) & R2).
  cbn in E1, E2, E3. exists (N1 + N2)%nat, y1, y2. intros n Hn. split; [apply R1; lia|]. split; [exact E1|]. rewrite E1. split; [apply R2; lia|]. auto.
Qed.

(** *** The client with a file system *)
Definition fs0 : xw := mkXw [(100005, 3, 6, 2049); (100003, 3, 6, 2049)]
  [([x01], list_byte_of_string "foo", [x02]); ([x02], list_byte_of_string "bar", [x03])].
Definition fs1 : xw := mkXw (x_map fs0) [([x03], list_byte_of_string "foonew", [x02]); ([x02], list_byte_of_string "bar", [x03])].
Definition ex_ls (prs srs : list (registration xw)) : listeners xw := fun p =>
  if p =? 111 then Some (RegisterMany MakeServer prs) else if p =? 2049 then Some (RegisterMany MakeServer srs) else if p =? 700 then Some MakeServer else None.
Definition ex_regs (prs srs : list (registration xw)) (p : Z) : list (registration xw) := if p =? 111 then prs else if p =? 2049 then srs else [].

Ltac closed := first [exists 18%nat; vm_compute; reflexivity|vm_compute; reflexivity].
Lemma fs_client ls regs : ls 2049 <> None -> offers ls regs 2049 rfc1813_env mnto 100005 3 mount_table -> offers ls regs 2049 rfc1813_env nfso 100003 3 nfs_table ->
  client_run ls regs pmo mnto nfso fs0 fs1 Stopped [VInt 1; fh [x01]; fh [x03]; zero1813 "RENAME3res"] [None; Some 2049; None; Some 2049].
Proof.
  intros Hl H1 H2. assert (U : u32 2049) by (unfold u32; lia).
  eapply (CR_mounted ls regs pmo mnto nfso fs0 fs0 2049 fs0 (setf "Mountinfo" (VStruct [("Fhandle", VBytes (Some [x01])); ("Auth_flavors", VSlice (Some [VInt 1]))]) (zero1813 "Mountres3")) fs1 Stopped [fh [x03]; zero1813 "RENAME3res"]);
    [apply finds_port; [reflexivity|exact U|exact Hl]|exact H1| |reflexivity|].
  - eapply (applies_closed rfc1813_env mnto mount_table 1 "MOUNTPROC3_MNT"); [exact mnto_ok|right; left; reflexivity|reflexivity|closed|closed|closed|closed].
  - eapply (MR_renamed ls regs pmo nfso _ fs0 fs0 2049 fs0 (setf "Resok" (setf "Object" (fh [x02]) (zero1813 "LOOKUP3resok")) (zero1813 "LOOKUP3res")) fs0 (setf "Resok" (setf "Object" (fh [x03]) (zero1813 "LOOKUP3resok")) (zero1813 "LOOKUP3res")) fs1 (zero1813 "RENAME3res"));
      [apply finds_port; [reflexivity|exact U|exact Hl]|exact H2| |reflexivity| |reflexivity|].
    + eapply (applies_closed rfc1813_env nfso nfs_table 3 "NFSPROC3_LOOKUP"); [exact nfso_ok|do 3 right; left; reflexivity|reflexivity|closed|closed|closed|closed].
    + eapply (applies_closed rfc1813_env nfso nfs_table 3 "NFSPROC3_LOOKUP"); [exact nfso_ok|do 3 right; left; reflexivity|reflexivity|closed|closed|closed|closed].
    + eapply (applies_closed rfc1813_env nfso nfs_table 14 "NFSPROC3_RENAME"); [exact nfso_ok|do 14 right; left; reflexivity|reflexivity|closed|closed|closed|closed].
Qed.

(** Both servers, with registrations the functions of the committed packages return (pmap_regs, nfs_regs). *)
Lemma table_prog {W} E (obj : object W) a b t rs : Forall2 (entry E obj a b) t rs -> forall r, In r rs -> rg_prog r = a.
Proof. intros H. induction H as [|[[[k m] ta] tr] r t rs (Hr & _) _ IH]; intros r0 []; subst; auto. Qed.
Fixpoint znodup (l : list Z) : bool := match l with [] => true | x :: l => negb (existsb (Z.eqb x) l) && znodup l end.
Lemma znodup_ok l : znodup l = true -> NoDup l.
Proof.
  induction l as [|x l IH]; intros H; constructor; cbn in H; apply andb_prop in H; destruct H as [H1 H2]; [|auto].
  intros I. assert (existsb (Z.eqb x) l = true) as K by (apply existsb_exists; exists x; split; [exact I|apply Z.eqb_refl]). rewrite K in H1. discriminate.
Qed.
Lemma ex_system : exists prs srs, listening (ex_ls prs srs) (ex_regs prs srs) /\
  offers (ex_ls prs srs) (ex_regs prs srs) 111 rpc_env pmo 100000 2 pmap_table /\
  offers (ex_ls prs srs) (ex_regs prs srs) 2049 rfc1813_env mnto 100005 3 mount_table /\
  offers (ex_ls prs srs) (ex_regs prs srs) 2049 rfc1813_env nfso 100003 3 nfs_table.
Proof.
  destruct (pmap_regs _ pmx_declared) as (rp & _ & _ & Hp). destruct (Hp xw pmo) as (prs & _ & Fp).
  destruct rfc1813_committed as (P & _ & D). destruct (nfs_regs P D) as ((rn & _ & _ & Hn) & (rm & _ & _ & Hm)).
  destruct (Hn xw nfso) as (nrs & _ & Fn). destruct (Hm xw mnto) as (mrs & _ & Fm).
  assert (Np : NoDup (map proc_no pmap_table)) by (apply znodup_ok; vm_compute; reflexivity).
  assert (Nm : NoDup (map proc_no mount_table)) by (apply znodup_ok; vm_compute; reflexivity).
  assert (Nn : NoDup (map proc_no nfs_table)) by (apply znodup_ok; vm_compute; reflexivity).
  exists prs, (mrs ++ nrs). split; [|split; [|split]].
  - intros port srv H. unfold ex_ls, ex_regs in *. destruct (port =? 111); [|destruct (port =? 2049); [|destruct (port =? 700); [|discriminate]]]; injection H as <-.
    + split; [exact (R_many _ [] _ ServSpec.R_make)|exact (table_regs_ok _ _ _ _ _ _ Fp pmo_ok)].
    + split; [exact (R_many _ [] _ ServSpec.R_make)|]. intros r h Hr. apply in_app_or in Hr.
      destruct Hr as [Hr|Hr]; [exact (table_regs_ok _ _ _ _ _ _ Fm mnto_ok r h Hr)|exact (table_regs_ok _ _ _ _ _ _ Fn nfso_ok r h Hr)].
    + split; [exact ServSpec.R_make|]. intros r h [].
  - split; [discriminate|]. split; [exact pmo_ok|]. split; [exact Np|]. exists [], prs, []. split; [cbn; rewrite app_nil_r; reflexivity|]. split; [exact Fp|]. intros r [].
  - split; [discriminate|]. split; [exact mnto_ok|]. split; [exact Nm|]. exists [], mrs, nrs. split; [reflexivity|]. split; [exact Fm|].
    intros r Hr [K _]. rewrite (table_prog _ _ _ _ _ _ Fn r Hr) in K. discriminate.
  - split; [discriminate|]. split; [exact nfso_ok|]. split; [exact Nn|]. exists mrs, nrs, []. split; [cbn; rewrite app_nil_r; reflexivity|]. split; [exact Fn|]. intros r [].
Qed.
Lemma ex_system' : exists prs srs, let ls := ex_ls prs srs in let regs := ex_regs prs srs in
  listening ls regs /\ offers ls regs 111 rpc_env pmo 100000 2 pmap_table /\
  offers ls regs 2049 rfc1813_env mnto 100005 3 mount_table /\ offers ls regs 2049 rfc1813_env nfso 100003 3 nfs_table /\
  ls 700 = Some MakeServer /\ regs 700 = [] /\ ls 2049 <> None /\ chunker bytewise.
Proof.
  destruct ex_system as (prs & srs & H1 & H2 & H3 & H4). exists prs, srs. cbv zeta. do 4 (split; [assumption|]). split; [reflexivity|]. split; [reflexivity|].
  split; [discriminate|]. exact bytewise_ok.
Qed.
