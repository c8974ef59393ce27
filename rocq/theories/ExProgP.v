(** Proofs about the example programs. *)
From Verif Require Import GoLex XLex Gram GParse Emit RepoText GoAst GoText GoTop GoRes GoPkg GoWf.
From Verif Require Import Bytes XdrLib Types Interp Spec Meta Canon Runs Codec Check RpcTypes RpcSpec RpcWire RpcDec Io Client CallSpec ClientP
  Server ServSpec ServerP ServerQ ServerX ServerEx E2E ReplyQ GoSem GenCommitted GoStub GenStub E2EGen Prog ProgP ExProg.
Open Scope string_scope.
Open Scope Z_scope.
Open Scope list_scope.

(** client/main.go:64: EncodeBuf of the zero Auth_unix *)
Lemma unix_body : fresh rpc_env (CIdent "Auth_unix") (xv_val (var1057 "Auth_unix")) /\
  Encode rpc_env (CIdent "Auth_unix") (xv_val (var1057 "Auth_unix")) (zeros 20) None.
Proof. split; [exists 16%nat; vm_compute; reflexivity|]. exists 16%nat. vm_compute. reflexivity. Qed.

Lemma bounded_same D E t v : good D E t -> has_ty E t v -> bounded ENC E t v -> same E t v v.
Proof.
  intros (HE & Ht & Hz) Hv Hb. destruct (proj1 (bounded_Wire D E ENC HE) _ _ Hb Ht Hv) as [w Hw].
  apply (Encode_ok_wire D E t HE Ht v w Hv) in Hw.
  exact (proj1 (c23 D E t HE Ht Hz v v w w [] [] Hv Hv Hw Hw eq_refl)).
Qed.
Lemma same_bounded D E t v v' : good D E t -> has_ty E t v -> bounded ENC E t v -> same E t v v' -> bounded ENC E t v'.
Proof.
  intros (HE & Ht & Hz) Hv Hb Hs. destruct (proj1 (bounded_Wire D E ENC HE) _ _ Hb Ht Hv) as [w Hw].
  exact (proj1 (Wire_bounded ENC E) _ _ _ (Wire_same _ _ _ _ _ _ Hw Hs)).
Qed.

Lemma table_unique (t : list proc) p q : NoDup (map proc_no t) -> In p t -> In q t -> proc_no p = proc_no q -> p = q.
Proof.
  induction t as [|r t IH]; intros N Ip Iq E; [destruct Ip|]. cbn [map] in N. inversion N as [|? ? N1 N2]; subst.
  destruct Ip as [->|Ip], Iq as [->|Iq]; auto; exfalso; apply N1; [rewrite E|rewrite <- E]; apply in_map; assumption.
Qed.

Section Direct.
Context {W : Type}.
Variables (ls : listeners W) (regs : Z -> list (registration W)).

(** One call of a registered procedure. *)
Record proper (E : env) (q : callreq) (ta tr : cty) (a b : Z) : Prop := mkProper {
  pr_ok : req_ok q; pr_enc : encodable q;
  pr_args : xv_env (rq_args q) = E /\ xv_ty (rq_args q) = ta;
  pr_canon : canon E ta (xv_val (rq_args q));
  pr_resp : xv_env (rq_resp q) = E /\ xv_ty (rq_resp q) = tr;
  pr_fresh : fresh E tr (xv_val (rq_resp q));
  pr_size : forall xid m, request xid a b q m -> zlen m < 2 ^ 31 }.

Lemma applies_meets port E obj a b t q m ta tr w w' res xid : offers ls regs port E obj a b t -> proper E q ta tr a b ->
  In (rq_proc q, m, Some ta, Some tr) t -> applies E obj t (rq_proc q) (xv_val (rq_args q)) w w' res ->
  exists f, meets (regs port) xid a b q w w' f /\ forall v e, reports q f v e -> v = res /\ e = None.
Proof.
  intros (Hl & Ho & Hn & pre & rs & post & Er & HF & Hpost) [Pok Penc [Pa1 Pa2] Pc [Pr1 Pr2] Pf Ps] Hin [m' ta' tr' y Hin' Hx Hb Hsz Hs Hk Ht].
  pose proof (table_unique _ _ _ Hn Hin Hin' eq_refl) as Eq. injection Eq as <- <- <-.
  destruct Pok as (_ & _ & _ & ((D & HwE & Hwt & Hz) & Hty) & ((D' & HwE' & Hwt' & Hz') & Hty')).
  rewrite Pa1 in HwE, Hwt, Hz, Hty. rewrite Pa2 in Hwt, Hz, Hty. rewrite Pr1 in HwE', Hwt'. rewrite Pr2 in Hwt'.
  exists (Answered (mkAns E (Some tr) (Some y))). split.
  - apply M_answered. rewrite Er. destruct (table_last E obj a b t rs HF Ho Hn pre post _ _ _ _ Hpost Hin) as (h & L & A & U).
    eapply Invokes; [exact L|exact A|exact U| |exact Hx|exact Hb|exact (Ps xid)|exact Hsz|].
    + split; [exact Pa1|]. split; [exact Pa2|]. exists (xv_val (rq_args q)). split; [reflexivity|]. split; [|split; [exact Pc|exact Hty]].
      apply (bounded_same D); [split; [exact HwE|split; [exact Hwt|exact Hz]]|exact Hty|]. destruct Penc as (_ & _ & Pb). rewrite Pa1, Pa2 in Pb. exact Pb.
    + split; [exact Pr1|]. split; [exact Pr2|]. exact (fresh_stale E tr _ Pf).
  - intros v e [-> (y' & [= <-] & S' & K' & T')]. split; [|reflexivity]. cbn [an_env] in *.
    eapply (same_canon_eq D'); [exact HwE'|exact Hwt'| |exact K'|exact Hk|exact T'|exact Ht].
    eapply same_trans; [apply (proj1 (same_sym E)); exact S'|exact Hs].
Qed.

Lemma direct_call port E obj a b t q m ta tr w w' res cs cls out j i c k Q :
  offers ls regs port E obj a b t -> proper E q ta tr a b -> In (rq_proc q, m, Some ta, Some tr) t ->
  applies E obj t (rq_proc q) (xv_val (rq_args q)) w w' res ->
  nth_error cls j = Some (i, c) -> nth_error cs i = Some (Some port) -> cl_prog c = a -> cl_vers c = b ->
  direct ls regs (k res None) (mkDsys w' cs (set_nth j (i, incr_xid c) cls) out) Q ->
  direct ls regs (PCall j q k) (mkDsys w cs cls out) Q.
Proof.
  intros Ho Hp Hin Ha Hj Hi Ec Ev Hd.
  destruct (applies_meets port E obj a b t q m ta tr w w' res (next_xid c) Ho Hp Hin Ha) as (f & Hm & Hr).
  cbn [direct d_clients d_conns d_w d_out]. exists i, c, port, w', f. split; [exact Hj|]. split; [exact Hi|].
  split; [exact (pr_ok _ _ _ _ _ _ Hp)|]. split; [exact (pr_enc _ _ _ _ _ _ Hp)|].
  split. { destruct (pr_resp _ _ _ _ _ _ Hp) as [-> ->]. exact (pr_fresh _ _ _ _ _ _ Hp). }
  split; [rewrite Ec, Ev; exact Hm|]. intros v e HR. destruct (Hr v e HR) as [-> ->]. exact Hd.
Qed.

Lemma direct_down port q w cs cls out j i c k Q stat : turned_down (regs port) (cl_prog c) (cl_vers c) q stat ->
  req_ok q -> encodable q -> fresh (xv_env (rq_resp q)) (xv_ty (rq_resp q)) (xv_val (rq_resp q)) ->
  (forall xid m, request xid (cl_prog c) (cl_vers c) q m -> zlen m < 2 ^ 31) ->
  nth_error cls j = Some (i, c) -> nth_error cs i = Some (Some port) ->
  direct ls regs (k (xv_val (rq_resp q)) (Some (CAccept stat))) (mkDsys w cs (set_nth j (i, incr_xid c) cls) out) Q ->
  direct ls regs (PCall j q k) (mkDsys w cs cls out) Q.
Proof.
  intros Ht Hq He Hf Hs Hj Hi Hd. cbn [direct d_clients d_conns d_w d_out].
  exists i, c, port, w, (TurnedDown stat). repeat (split; [assumption|]). split; [apply M_turned_down; [exact Ht|apply Hs]|].
  intros v e [-> ->]. exact Hd.
Qed.
End Direct.

(** ** The requests *)
Lemma wireI p E x t v b : Wire p E (CIdent x) v b -> lookup x E = Some t -> Wire p E t v b.
Proof. intros H L. inversion H; subst. congruence. Qed.
Lemma tyI E x t v : has_ty E (CIdent x) v -> lookup x E = Some t -> has_ty E t v.
Proof. intros H L. inversion H; subst. congruence. Qed.
Lemma canonI E x t v : canon E (CIdent x) v -> lookup x E = Some t -> canon E t v.
Proof. intros H L. inversion H; subst. congruence. Qed.
Lemma boundedI p E x t v : bounded p E (CIdent x) v -> lookup x E = Some t -> bounded p E t v.
Proof. intros H L. inversion H; subst. congruence. Qed.

Lemma req_size xid a b q m : encodable q -> (forall wa, Wire ENC (xv_env (rq_args q)) (xv_ty (rq_args q)) (xv_val (rq_args q)) wa -> zlen wa < 2 ^ 30) ->
  request xid a b q m -> zlen m < 2 ^ 31.
Proof.
  intros ((f & o & C1 & C2) & (g & o' & V1 & V2) & _) Hs (f1 & o1 & f2 & o2 & w1 & w2 & wargs & E1 & E2 & H1 & H2 & Ha & ->).
  rewrite C1 in E1. rewrite V1 in E2. injection E1 as <- <-. injection E2 as <- <-. apply e2x_auth in H1, H2.
  specialize (Hs _ Ha). unfold call_hdr, zlen in *. rewrite !app_length, !be4_len. lia.
Qed.

Lemma none_ok : auth_ok cred_none. Proof. apply auth_ty. apply u32_0. Qed.
Lemma unix_ok : auth_ok cred_unix. Proof. apply auth_ty. apply u32_small. lia. Qed.
Lemma none_enc : exists f o, cred_none = auth_val f o /\ zlen (bytes_of o) <= 400.
Proof. exists 0, None. split; [reflexivity|]. cbn. lia. Qed.
Lemma unix_enc : exists f o, cred_unix = auth_val f o /\ zlen (bytes_of o) <= 400.
Proof. exists 1, (Some (zeros 20)). split; [reflexivity|]. cbn. lia. Qed.

Lemma var1813_ok T z : In T (map fst rfc1813_env) -> zero rfc1813_D rfc1813_env (CIdent T) = Some z ->
  xv_ok (var1813 T) /\ fresh rfc1813_env (CIdent T) (xv_val (var1813 T)).
Proof.
  intros I Hz. assert (F : fresh rfc1813_env (CIdent T) (xv_val (var1813 T))). { exists rfc1813_D. cbn [var1813 xv_val]. rewrite Hz. reflexivity. }
  split; [|exact F]. split; [exists rfc1813_D; apply rfc1813_good; exact I|]. exact (fresh_ty _ _ _ F).
Qed.

Lemma padded n pad : is_pad ENC n pad -> zlen pad <= 3.
Proof. intros (P1 & _). unfold zlen. lia. Qed.
Lemma pad_le n pad : is_pad ENC n pad -> (List.length pad <= 3)%nat.
Proof. intros (P1 & _). lia. Qed.

(** Value, wire size, for the argument types. *)
Definition arg_ok (E : env) (t : cty) (v : val) (k : Z) : Prop :=
  has_ty E t v /\ canon E t v /\ bounded ENC E t v /\ forall b, Wire ENC E t v b -> zlen b <= k.
Lemma arg_ident E x t v k : lookup x E = Some t -> arg_ok E t v k -> arg_ok E (CIdent x) v k.
Proof.
  intros L (H1 & H2 & H3 & H4). split; [exact (HT_ident _ _ _ _ L H1)|]. split; [exact (K_ident _ _ _ _ L H2)|].
  split; [exact (B_ident _ _ _ _ _ L H3)|]. intros b Hb. apply H4. exact (wireI _ _ _ _ _ _ Hb L).
Qed.
Lemma arg_u32 E z : u32 z -> arg_ok E CU32 (VInt z) 4.
Proof.
  intros H. split; [constructor; exact H|]. split; [constructor|]. split; [constructor|]. intros b Hb. inversion Hb as [? ? _ K| | | | | | | | | | | | | | | |]; subst.
  unfold zlen. rewrite (proj1 K). lia.
Qed.
Lemma arg_bytes E m bs : within m (zlen bs) -> arg_ok E (CVarOpaque m) (VBytes (Some bs)) (zlen bs + 7).
Proof.
  intros H. split; [constructor|]. split; [constructor|]. split; [constructor; exact H|]. intros b Hb.
  inversion Hb as [| | | | | | |? o hd bs' pad E1 _ K P| | | | | | | | |]; subst. apply padded in P. cbn [bytes_of] in *. unfold zlen in *. rewrite !app_length, (proj1 K). lia.
Qed.
Lemma arg_str E m bs : within m (zlen bs) -> arg_ok E (CString m) (VStr bs) (zlen bs + 7).
Proof.
  intros H. split; [constructor|]. split; [constructor|]. split; [constructor; exact H|]. intros b Hb.
  inversion Hb as [| | | | | | | |? bs' hd pad _ K P| | | | | | | |]; subst. apply padded in P. unfold zlen in *. rewrite !app_length, (proj1 K). lia.
Qed.
(** Structs with the fields in order. *)
Inductive args_ok (E : env) : list (string * cty) -> list (string * val) -> Z -> Prop :=
| AO_nil : args_ok E [] [] 0
| AO_cons f t v k fs l n : arg_ok E t v k -> args_ok E fs l n -> args_ok E ((f, t) :: fs) ((f, v) :: l) (k + n).
Lemma args_ok_struct E fs l n : args_ok E fs l n -> NoDup (map fst fs) -> arg_ok E (CStruct fs) (VStruct l) n.
Proof.
  intros H N.
  assert (A : forall l0, (forall f v, lookup f l = Some v -> In f (map fst fs) -> lookup f l0 = Some v) ->
    has_fields E fs l /\ canon_fields E fs l0 /\ bounded_fields ENC E fs l0 /\ forall b, WireFields ENC E fs l0 b -> zlen b <= n).
  { clear -H N. induction H as [|f t v k fs l n Ha H IH]; intros l0 Hl0.
    - split; [constructor|]. split; [constructor|]. split; [constructor|]. intros b Hb. inversion Hb; subst. cbn. lia.
    - cbn [map fst] in N. inversion N as [|? ? N1 N2]; subst. destruct Ha as (A1 & A2 & A3 & A4).
      destruct (IH N2 l0) as (B1 & B2 & B3 & B4).
      { intros g u Hg Ig. apply Hl0; [|right; exact Ig]. cbn. destruct (String.eqb_spec g f) as [->|]; [contradiction|exact Hg]. }
      assert (L : lookup f l0 = Some v). { apply Hl0; [|left; reflexivity]. cbn. rewrite String.eqb_refl. reflexivity. }
      split; [constructor; assumption|]. split; [econstructor; eassumption|]. split; [econstructor; eassumption|].
      intros b Hb. inversion Hb as [|? ? ? ? v' b1 b2 L' W1 W2]; subst. rewrite L in L'. injection L' as <-.
      specialize (A4 _ W1). specialize (B4 _ W2). unfold zlen in *. rewrite app_length. lia. }
  destruct (A l ltac:(auto)) as (B1 & B2 & B3 & B4).
  split; [constructor; exact B1|]. split; [constructor; exact B2|]. split; [constructor; exact B3|].
  intros b Hb. inversion Hb; subst. apply B4. assumption.
Qed.

Definition fh_ok (fh : val) : Prop := exists bs, fh = VStruct [("Data", VBytes (Some bs))] /\ zlen bs <= 64.
Ltac nodup_s := repeat constructor; cbn; intuition discriminate.
Ltac look := vm_compute; reflexivity.
Lemma mapping_arg prog vers port : u32 prog -> u32 vers -> u32 port -> arg_ok rpc_env (CIdent "Mapping") (mapping prog vers port) 16.
Proof.
  intros H1 H2 H3. eapply arg_ident; [look|]. change 16 with (4 + (4 + (4 + (4 + 0)))). apply args_ok_struct; [|nodup_s].
  assert (u32 6) by (apply u32_small; lia).
  repeat (constructor; [apply arg_u32; assumption|]). constructor.
Qed.
Lemma fh_arg fh : fh_ok fh -> exists k, k <= 80 /\ arg_ok rfc1813_env (CIdent "Nfs_fh3") fh k.
Proof.
  intros (bs & -> & Hb). exists (zlen bs + 7 + 0). split; [lia|]. eapply arg_ident; [look|]. apply args_ok_struct; [|nodup_s].
  constructor; [|constructor]. apply arg_bytes. split; [cbn; lia|]. lia.
Qed.
Lemma dirop_arg fh name : fh_ok fh -> zlen (list_byte_of_string name) <= 100 -> exists k, k <= 200 /\ arg_ok rfc1813_env (CIdent "Diropargs3") (dirop fh name) k.
Proof.
  intros Hf Hn. destruct (fh_arg fh Hf) as (k & Hk & Ha). eexists. split; [|eapply arg_ident; [look|]; apply args_ok_struct; [|nodup_s];
    constructor; [exact Ha|]; constructor; [|constructor]; eapply arg_ident; [look|]; apply arg_str].
  - lia.
  - split; [lia|exact I].
Qed.
Lemma lookup_arg fh name : fh_ok fh -> zlen (list_byte_of_string name) <= 100 -> exists k, k <= 500 /\ arg_ok rfc1813_env (CIdent "LOOKUP3args") (lookup_args fh name) k.
Proof.
  intros Hf Hn. destruct (dirop_arg fh name Hf Hn) as (k & Hk & Ha). eexists. split; [|eapply arg_ident; [look|]; apply args_ok_struct; [|nodup_s];
    constructor; [exact Ha|constructor]]. lia.
Qed.
Lemma rename_arg r f b g : fh_ok r -> fh_ok b -> zlen (list_byte_of_string f) <= 100 -> zlen (list_byte_of_string g) <= 100 ->
  exists k, k <= 500 /\ arg_ok rfc1813_env (CIdent "RENAME3args") (rename_args r f b g) k.
Proof.
  intros Hr Hb Hf Hg. destruct (dirop_arg r f Hr Hf) as (k & Hk & Ha). destruct (dirop_arg b g Hb Hg) as (k' & Hk' & Ha').
  eexists. split; [|eapply arg_ident; [look|]; apply args_ok_struct; [|nodup_s]; constructor; [exact Ha|]; constructor; [exact Ha'|constructor]]. lia.
Qed.
Lemma path_arg : arg_ok rfc1813_env (CIdent "Dirpath3") (str "/") 8.
Proof. eapply arg_ident; [look|]. apply (arg_str _ _ ["/"%byte]). split; [cbn; lia|]. cbn. lia. Qed.

Lemma make_proper E q ta tr a b k : u32 (rq_proc q) -> auth_ok (rq_cred q) -> auth_ok (rq_verf q) ->
  (exists f o, rq_cred q = auth_val f o /\ zlen (bytes_of o) <= 400) -> (exists f o, rq_verf q = auth_val f o /\ zlen (bytes_of o) <= 400) ->
  xv_env (rq_args q) = E /\ xv_ty (rq_args q) = ta -> xv_env (rq_resp q) = E /\ xv_ty (rq_resp q) = tr ->
  (exists D, good D E ta) -> (exists D, good D E tr) ->
  arg_ok E ta (xv_val (rq_args q)) k -> k < 2 ^ 30 -> fresh E tr (xv_val (rq_resp q)) -> proper E q ta tr a b.
Proof.
  intros Hp A1 A2 N1 N2 [Ea Ta] [Er Tr] G1 G2 (H1 & H2 & H3 & H4) Hk Hf.
  assert (He : encodable q). { split; [exact N1|]. split; [exact N2|]. rewrite Ea, Ta. exact H3. }
  constructor; auto.
  - split; [exact Hp|]. split; [exact A1|]. split; [exact A2|]. split; split; rewrite ?Ea, ?Ta, ?Er, ?Tr; auto.
    destruct G2 as [D (G2 & G3 & G4)]. exact (fresh_ty E tr _ Hf).
  - intros xid m. apply req_size; [exact He|]. rewrite Ea, Ta. intros wa Hw. specialize (H4 _ Hw). lia.
Qed.

(** ** The results *)
Lemma applies_shape {W} E (obj : object W) t k m ta tr args w w' res : obj_ok E obj t -> NoDup (map proc_no t) ->
  In (k, m, Some ta, Some tr) t -> applies E obj t k args w w' res ->
  has_ty E tr res /\ canon E tr res /\ bounded ENC E tr res.
Proof.
  intros Ho Hn Hin [m' ta' tr' y Hin' Hx Hb Hsz Hs Hk Ht].
  pose proof (table_unique _ _ _ Hn Hin Hin' eq_refl) as Eq. injection Eq as <- <- <-.
  split; [exact Ht|]. split; [exact Hk|].
  unfold obj_ok in Ho. rewrite Forall_forall in Ho. destruct (Ho _ Hin) as (_ & G2 & U). destruct (G2 _ eq_refl) as [D G].
  destruct (U _ _ _ _ Hx) as (v & [= <-] & Hv). eapply same_bounded; [exact G|exact Hv|exact Hb|exact Hs].
Qed.

Lemma fh_shape_data m v : has_ty rfc1813_env (CVarOpaque (Some m)) v -> canon rfc1813_env (CVarOpaque (Some m)) v -> bounded ENC rfc1813_env (CVarOpaque (Some m)) v ->
  exists bs, v = VBytes (Some bs) /\ zlen bs <= m.
Proof. intros H1 H2 H3. inversion H2; subst. inversion H3 as [| | | | | |? ? Hw| | | | | | | |]; subst. eexists. split; [reflexivity|]. exact (proj2 Hw). Qed.

Definition all3 (t : cty) (v : val) : Prop := has_ty rfc1813_env t v /\ canon rfc1813_env t v /\ bounded ENC rfc1813_env t v.
Lemma all3_ident x t v : all3 (CIdent x) v -> lookup x rfc1813_env = Some t -> all3 t v.
Proof. intros (H1 & H2 & H3) L. split; [exact (tyI _ _ _ _ H1 L)|]. split; [exact (canonI _ _ _ _ H2 L)|exact (boundedI _ _ _ _ _ H3 L)]. Qed.
Lemma all3_field fs v f t : all3 (CStruct fs) v -> NoDup (map fst fs) -> lookup f fs = Some t -> all3 t (fld f v).
Proof.
  intros (H1 & H2 & H3) N L. inversion H1 as [| | | | | | | | | | |? l K1| |]; subst. inversion H2 as [| | | | | | | | | | |? ? K2| | |]; subst. inversion H3 as [| | | | | | | | | | |? ? K3| | |]; subst.
  unfold fld. assert (exists x, lookup f l = Some x /\ all3 t x) as (x & -> & Hx); [|exact Hx].
  assert (A1 : exists x, lookup f l = Some x /\ has_ty rfc1813_env t x).
  { clear -K1 L. induction K1 as [|g t' v fs l Hv K1 IH]; [discriminate|]. cbn in *. destruct (String.eqb f g); [injection L as <-; eauto|auto]. }
  destruct A1 as (x & Lx & Tx). exists x. split; [exact Lx|]. split; [exact Tx|]. split.
  - clear -K2 L Lx. induction K2 as [|g t' fs l v Lv Hv K2 IH]; [discriminate|]. cbn in L. destruct (String.eqb_spec f g) as [->|]; [|auto].
    injection L as <-. rewrite Lx in Lv. injection Lv as <-. exact Hv.
  - clear -K3 L Lx. induction K3 as [|g t' fs l v Lv Hv K3 IH]; [discriminate|]. cbn in L. destruct (String.eqb_spec f g) as [->|]; [|auto].
    injection L as <-. rewrite Lx in Lv. injection Lv as <-. exact Hv.
Qed.
Lemma all3_arm sw st arms def v f t d : all3 (CUnion sw st arms def) v -> disc_of (fld sw v) = Some d -> pick_arm d arms def = Some (Some (f, t)) ->
  has_ty rfc1813_env t (fld f v) -> all3 t (fld f v).
Proof.
  intros (H1 & H2 & H3) Hd Hp Ht. split; [exact Ht|].
  inversion H2 as [| | | | | | | | | | | |? ? ? ? l dv d' f' t' x L K D P Lx Kx _|? ? ? ? l dv d' L K D P _|]; subst; unfold fld in Hd; rewrite L in Hd; rewrite D in Hd; injection Hd as ->;
    [|destruct P as [P|P]; rewrite P in Hp; discriminate].
  rewrite P in Hp. injection Hp as -> ->. unfold fld. rewrite Lx. split; [exact Kx|].
  inversion H3 as [| | | | | | | | | | | |? ? ? ? l' dv' d'' f'' t'' x' L' K' D' P' Lx' Kx'|? ? ? ? l' dv' d'' L' K' D' P'|]; subst; rewrite L in L'; injection L' as <-; rewrite D in D'; injection D' as <-;
    [|destruct P' as [P'|[P' _]]; rewrite P' in P; discriminate].
  rewrite P in P'. injection P' as <- <-. rewrite Lx in Lx'. injection Lx' as <-. exact Kx'.
Qed.
Lemma union_ty sw st arms def v f t : has_ty rfc1813_env (CUnion sw st arms def) v -> lookup f (union_fields sw st arms def) = Some t -> has_ty rfc1813_env t (fld f v).
Proof.
  intros H L. inversion H as [| | | | | | | | | | | |? ? ? ? l K1|]; subst. unfold fld. clear -K1 L.
  induction K1 as [|g t' v fs l Hv K1 IH]; [discriminate|]. cbn in *. destruct (String.eqb f g); [injection L as <-; exact Hv|auto].
Qed.
Lemma all3_sel sw st arms def v f t d : all3 (CUnion sw st arms def) v -> disc_of (fld sw v) = Some d -> pick_arm d arms def = Some (Some (f, t)) ->
  lookup f (union_fields sw st arms def) = Some t -> all3 t (fld f v).
Proof. intros H Hd Hp L. eapply all3_arm; eauto. exact (union_ty _ _ _ _ _ _ _ (proj1 H) L). Qed.
Lemma enum_disc x v : lookup x rfc1813_env = Some CU32 -> has_ty rfc1813_env (CIdent x) v -> disc_of v = Some (int_of v).
Proof. intros L H. apply (tyI _ _ CU32) in H; [|exact L]. inversion H; subst. reflexivity. Qed.

Lemma fh_shape v : all3 (CIdent "Nfs_fh3") v -> fh_ok v.
Proof.
  intros H. eapply all3_ident in H; [|look]. destruct H as (H1 & H2 & H3). pose proof H1 as H0.
  inversion H1 as [| | | | | | | | | | |? l K1| |]; subst. inversion K1 as [|? ? x ? l1 Tx K1' E1 E2]; subst. inversion K1'; subst.
  assert (A : all3 (CVarOpaque (Some 64)) (fld "Data" (VStruct [("Data", x)]))).
  { eapply all3_field; [split; [exact H0|split; [exact H2|exact H3]]|nodup_s|look]. }
  change (fld "Data" (VStruct [("Data", x)])) with x in A. destruct A as (A1 & A2 & A3). destruct (fh_shape_data _ _ A1 A2 A3) as (bs & -> & Hb).
  exists bs. auto.
Qed.
Lemma root_shape res : all3 (CIdent "Mountres3") res -> int_of (fld "Fhs_status" res) = 0 -> fh_ok (root_fh res).
Proof.
  intros H H0. eapply all3_ident in H; [|look].
  assert (Hd : disc_of (fld "Fhs_status" res) = Some 0).
  { rewrite <- H0. apply (enum_disc "Mountstat3"); [look|]. eapply union_ty; [exact (proj1 H)|look]. }
  eapply all3_sel in H; [|exact Hd|look|look]. eapply all3_ident in H; [|look].
  eapply (all3_field _ _ "Fhandle") in H; [|nodup_s|look]. eapply all3_ident in H; [|look]. destruct H as (A1 & A2 & A3).
  destruct (fh_shape_data _ _ A1 A2 A3) as (bs & E & Hb). exists bs. unfold root_fh. rewrite E. auto.
Qed.
Lemma object_shape res : all3 (CIdent "LOOKUP3res") res -> status res = 0 -> fh_ok (object_fh res).
Proof.
  intros H H0. eapply all3_ident in H; [|look].
  assert (Hd : disc_of (fld "Status" res) = Some 0).
  { unfold status in H0. rewrite <- H0. apply (enum_disc "Nfsstat3"); [look|]. eapply union_ty; [exact (proj1 H)|look]. }
  eapply all3_sel in H; [|exact Hd|look|look]. eapply all3_ident in H; [|look].
  eapply (all3_field _ _ "Object") in H; [|nodup_s|look]. apply fh_shape. exact H.
Qed.

(** ** Proper requests *)
Lemma good1813 T t : lookup T rfc1813_env = Some t -> exists D, good D rfc1813_env (CIdent T).
Proof. intros L. exists rfc1813_D. apply rfc1813_good. apply lookup_In in L. apply in_map_iff. exists (T, t). auto. Qed.
Lemma pmap_proper k prog vers port T a b : u32 k -> u32 prog -> u32 vers -> u32 port -> T = "Uint32" \/ T = "Xbool" ->
  proper rpc_env (pmap_req k (mapping prog vers port) T) (CIdent "Mapping") (CIdent T) a b.
Proof.
  intros Hk H1 H2 H3 HT.
  apply make_proper with 16; [exact Hk|exact none_ok|exact none_ok|exact none_enc|exact none_enc|split; reflexivity|destruct HT as [-> | ->]; split; reflexivity| | |exact (mapping_arg _ _ _ H1 H2 H3)|lia|].
  - apply good_rpc. vm_compute. reflexivity.
  - destruct HT as [-> | ->]; apply good_rpc; vm_compute; reflexivity.
  - destruct HT as [-> | ->]; exists 16%nat; vm_compute; reflexivity.
Qed.
Lemma mnt_proper a b : proper rfc1813_env mnt_req (CIdent "Dirpath3") (CIdent "Mountres3") a b.
Proof.
  apply make_proper with 8; [apply u32_small; cbn; lia|exact none_ok|exact none_ok|exact none_enc|exact none_enc|split; reflexivity|split; reflexivity| | |exact path_arg|lia|].
  - eapply good1813. look.
  - eapply good1813. look.
  - exists rfc1813_D. vm_compute. reflexivity.
Qed.
Lemma lookup_proper fh name a b : fh_ok fh -> zlen (list_byte_of_string name) <= 100 ->
  proper rfc1813_env (lookup_req fh name) (CIdent "LOOKUP3args") (CIdent "LOOKUP3res") a b.
Proof.
  intros Hf Hn. destruct (lookup_arg fh name Hf Hn) as (k & Hk & Ha).
  apply make_proper with k; [apply u32_small; cbn; lia|exact unix_ok|exact none_ok|exact unix_enc|exact none_enc|split; reflexivity|split; reflexivity| | |exact Ha|lia|].
  - eapply good1813. look.
  - eapply good1813. look.
  - exists rfc1813_D. vm_compute. reflexivity.
Qed.
Lemma rename_proper r bar a b : fh_ok r -> fh_ok bar ->
  proper rfc1813_env (rename_req r bar) (CIdent "RENAME3args") (CIdent "RENAME3res") a b.
Proof.
  intros Hf Hn. destruct (rename_arg r "foo" bar "foonew" Hf Hn) as (k & Hk & Ha); [cbn; lia|cbn; lia|].
  apply make_proper with k; [apply u32_small; cbn; lia|exact unix_ok|exact none_ok|exact unix_enc|exact none_enc|split; reflexivity|split; reflexivity| | |exact Ha|lia|].
  - eapply good1813. look.
  - eapply good1813. look.
  - exists rfc1813_D. vm_compute. reflexivity.
Qed.

(** ** The programs *)
Lemma set_nth_hit {A} j (x : A) l y : nth_error l j = Some y -> nth_error (set_nth j x l) j = Some x.
Proof. revert j. induction l as [|z l IH]; intros [|j] H; try discriminate; [reflexivity|]. cbn. apply IH. exact H. Qed.
Lemma set_nth_at {A} (x : A) l y r : set_nth (List.length l) x (l ++ y :: r) = l ++ x :: r.
Proof. induction l as [|z l IH]; cbn; [reflexivity|]. rewrite IH. reflexivity. Qed.
Lemma nth_at {A} (l : list A) y r : nth_error (l ++ y :: r) (List.length l) = Some y.
Proof. induction l as [|z l IH]; cbn; [reflexivity|exact IH]. Qed.
Lemma nth_at1 {A} (l : list A) z y r : nth_error (l ++ z :: y :: r) (Datatypes.S (List.length l)) = Some y.
Proof. induction l as [|x l IH]; [reflexivity|exact IH]. Qed.

Section Progs.
Context {W : Type}.
Variables (ls : listeners W) (regs : Z -> list (registration W)) (pm mnt nfs : object W).
Hypothesis portmapper : offers ls regs 111 rpc_env pm 100000 2 pmap_table.

Lemma u32_100000 : u32 100000. Proof. unfold u32. lia. Qed.
Lemma u32_2 : u32 2. Proof. unfold u32. lia. Qed.

Lemma direct_pmap prog vers w w1 cs cls out k Q : u32 prog -> u32 vers ->
  forall o, finds ls pm prog vers w w1 o ->
  match o with
  | Some p => forall cls' j, nth_error cls' j = Some (Datatypes.S (List.length cs), MakeClient prog vers) ->
      direct ls regs (k j) (mkDsys w1 (cs ++ [None; Some p]) cls' out) Q
  | None => forall cls', Q (mkDsys w1 (cs ++ [None]) cls' out) Panicked
  end -> direct ls regs (pmap_client prog vers k) (mkDsys w cs cls out) Q.
Proof.
  intros Hp Hv o Hf Hk. unfold pmap_client.
  assert (L : ls 111 <> None) by exact (proj1 portmapper).
  assert (U0 : u32 0) by apply u32_0. assert (U3 : u32 3) by (unfold u32; lia).
  cbn [direct]. destruct (ls 111) as [srv|]; [clear L|contradiction]. cbn [d_w d_conns d_clients d_out].
  split; [exact u32_100000|]. split; [exact u32_2|].
  assert (Hcall : forall p, applies rpc_env pm pmap_table 3 (mapping prog vers 0) w w1 (VInt p) -> forall kk,
    direct ls regs (kk (VInt p) None) (mkDsys w1 (cs ++ [Some 111]) (set_nth (List.length cls) (List.length cs, incr_xid (MakeClient 100000 2)) (cls ++ [(List.length cs, MakeClient 100000 2)])) out) Q ->
    direct ls regs (PCall (List.length cls) (pmap_req 3 (mapping prog vers 0) "Uint32") kk)
      (mkDsys w (cs ++ [Some 111]) (cls ++ [(List.length cs, MakeClient 100000 2)]) out) Q).
  { intros p Ha kk Hd. eapply (direct_call ls regs 111 rpc_env pm 100000 2 pmap_table);
      [exact portmapper|exact (pmap_proper 3 prog vers 0 "Uint32" _ _ U3 Hp Hv U0 (or_introl eq_refl))|do 3 right; left; reflexivity|exact Ha|apply nth_at|apply nth_at|reflexivity|reflexivity|exact Hd]. }
  destruct Hf as [p Ha Hl|p Ha Hl].
  - apply (Hcall p Ha). cbn [direct int_of d_w d_conns d_clients d_out]. destruct (ls p) as [srv'|]; [|contradiction]. cbn [direct d_w d_conns d_clients d_out].
    split; [exact Hp|]. split; [exact Hv|]. rewrite <- !app_assoc. cbn [app]. rewrite (set_nth_at None cs).
    replace (List.length (cs ++ [Some 111])) with (Datatypes.S (List.length cs)) by (rewrite app_length; cbn; lia).
    apply Hk. apply nth_at.
  - apply (Hcall p Ha). cbn [direct int_of d_w d_conns d_clients d_out]. rewrite Hl. cbn [direct d_w d_conns d_clients d_out]. rewrite (set_nth_at None cs). apply Hk.
Qed.

Lemma direct_prints l k w cs cls out Q : direct ls regs k (mkDsys w cs cls (out ++ l)) Q -> direct ls regs (print_all l k) (mkDsys w cs cls out) Q.
Proof.
  revert out. induction l as [|v l IH]; intros out H; cbn [print_all].
  - rewrite app_nil_r in H. exact H.
  - cbn [direct d_w d_conns d_clients d_out]. apply IH. rewrite <- app_assoc. exact H.
Qed.

Lemma direct_lookup p c fh name w w' res cs cls out i j k Q :
  offers ls regs p rfc1813_env nfs 100003 3 nfs_table -> looks_up nfs fh name w w' res -> fh_ok fh -> zlen (list_byte_of_string name) <= 100 ->
  nth_error cls j = Some (i, c) -> nth_error cs i = Some (Some p) -> cl_prog c = 100003 -> cl_vers c = 3 ->
  (if Z.eqb (status res) 0 then fh_ok (object_fh res) -> direct ls regs (k (object_fh res)) (mkDsys w' cs (set_nth j (i, incr_xid c) cls) out) Q
   else Q (mkDsys w' cs (set_nth j (i, incr_xid c) cls) out) Panicked) ->
  direct ls regs (lookup3 j fh name k) (mkDsys w cs cls out) Q.
Proof.
  intros Ho Ha Hf Hn Hj Hi Ec Ev Hk. unfold lookup3.
  assert (Hin : In (3, "NFSPROC3_LOOKUP", Some (CIdent "LOOKUP3args"), Some (CIdent "LOOKUP3res")) nfs_table) by (do 3 right; left; reflexivity).
  eapply (direct_call ls regs p rfc1813_env nfs 100003 3 nfs_table); [exact Ho|exact (lookup_proper fh name _ _ Hf Hn)|exact Hin|exact Ha|exact Hj|exact Hi|exact Ec|exact Ev|].
  cbv beta iota. fold (status res). destruct (Z.eqb_spec (status res) 0) as [E|E]; [|exact Hk].
  apply Hk. apply object_shape; [|exact E]. destruct Ho as (_ & Ho & Hnd & _). exact (applies_shape _ _ _ _ _ _ _ _ _ _ _ Ho Hnd Hin Ha).
Qed.

Definition ends (w : W) (r : ending) (out : list val) (cs : list (option Z)) (d : dsys W) (r' : ending) : Prop :=
  d_w d = w /\ r' = r /\ d_out d = out /\ d_conns d = cs.

Lemma direct_mounted root w w' r out cs cls pre cs' : fh_ok root -> mounted_run ls regs pm nfs root w w' r out cs' ->
  direct ls regs
    (pmap_client 100003 3 (fun nfs =>
        lookup3 nfs root "foo" (fun foo =>
        lookup3 nfs foo "bar" (fun bar =>
        PPrint bar
        (PCall nfs (rename_req root bar) (fun res1 err =>
        match err with
        | Some _ => PPanic
        | None => PPrint res1 PStop
        end)))))) (mkDsys w cs cls pre) (ends w' r (pre ++ out) (cs ++ cs')).
Proof.
  intros Hroot H. assert (U1 : u32 100003) by (unfold u32; lia). assert (U2 : u32 3) by (unfold u32; lia).
  destruct H as [w1 Hf|w1 p2 stat Hf Ht|w1 p2 w2 r1 Hf Ho H1 S1|w1 p2 w2 r1 w3 r2 Hf Ho H1 S1 H2 S2|w1 p2 w2 r1 w3 r2 w4 r3 Hf Ho H1 S1 H2 S2 H3].
  - apply (direct_pmap _ _ _ _ _ _ _ _ _ U1 U2 _ Hf). intros cls'. unfold ends. rewrite app_nil_r. auto.
  - apply (direct_pmap _ _ _ _ _ _ _ _ _ U1 U2 _ Hf). intros cls' j Hj. unfold lookup3.
    pose proof (lookup_proper root "foo" 100003 3 Hroot ltac:(cbn; lia)) as Hp.
    eapply (direct_down ls regs p2) with (c := MakeClient 100003 3); [exact Ht|exact (pr_ok _ _ _ _ _ _ Hp)|exact (pr_enc _ _ _ _ _ _ Hp)| |exact (pr_size _ _ _ _ _ _ Hp)|exact Hj|apply nth_at1|].
    + destruct (pr_resp _ _ _ _ _ _ Hp) as [-> ->]. exact (pr_fresh _ _ _ _ _ _ Hp).
    + cbn [direct]. unfold ends. rewrite app_nil_r. auto.
  - apply (direct_pmap _ _ _ _ _ _ _ _ _ U1 U2 _ Hf). intros cls' j Hj.
    eapply direct_lookup; [exact Ho|exact H1|exact Hroot|cbn; lia|exact Hj|apply nth_at1|reflexivity|reflexivity|].
    rewrite (proj2 (Z.eqb_neq _ _) S1). unfold ends. rewrite app_nil_r. auto.
  - apply (direct_pmap _ _ _ _ _ _ _ _ _ U1 U2 _ Hf). intros cls' j Hj.
    eapply direct_lookup; [exact Ho|exact H1|exact Hroot|cbn; lia|exact Hj|apply nth_at1|reflexivity|reflexivity|].
    rewrite (proj2 (Z.eqb_eq _ _) S1). intros Hfoo.
    eapply direct_lookup; [exact Ho|exact H2|exact Hfoo|cbn; lia|eapply set_nth_hit; exact Hj|apply nth_at1|reflexivity|reflexivity|].
    rewrite (proj2 (Z.eqb_neq _ _) S2). unfold ends. rewrite app_nil_r. auto.
  - apply (direct_pmap _ _ _ _ _ _ _ _ _ U1 U2 _ Hf). intros cls' j Hj.
    eapply direct_lookup; [exact Ho|exact H1|exact Hroot|cbn; lia|exact Hj|apply nth_at1|reflexivity|reflexivity|].
    rewrite (proj2 (Z.eqb_eq _ _) S1). intros Hfoo.
    eapply direct_lookup; [exact Ho|exact H2|exact Hfoo|cbn; lia|eapply set_nth_hit; exact Hj|apply nth_at1|reflexivity|reflexivity|].
    rewrite (proj2 (Z.eqb_eq _ _) S2). intros Hbar. cbn [direct d_w d_conns d_clients d_out].
    eapply (direct_call ls regs p2 rfc1813_env nfs 100003 3 nfs_table);
      [exact Ho|exact (rename_proper root (object_fh r2) _ _ Hroot Hbar)|do 14 right; left; reflexivity|exact H3|eapply set_nth_hit; eapply set_nth_hit; exact Hj|apply nth_at1|reflexivity|reflexivity|].
    cbn [direct d_w d_conns d_clients d_out]. unfold ends. cbn [d_w d_conns d_out]. rewrite <- app_assoc. auto.
Qed.

Lemma direct_client w w' r out cs : client_run ls regs pm mnt nfs w w' r out cs -> direct ls regs ex_client (dsys0 w) (ends w' r out cs).
Proof.
  intros H. unfold ex_client, dsys0. assert (U1 : u32 100005) by (unfold u32; lia). assert (U2 : u32 3) by (unfold u32; lia).
  assert (Hin : In (1, "MOUNTPROC3_MNT", Some (CIdent "Dirpath3"), Some (CIdent "Mountres3")) mount_table) by (right; left; reflexivity).
  pose proof (mnt_proper 100005 3) as Hp.
  destruct H as [w1 Hf|w1 p1 stat Hf Ht|w1 p1 w2 res Hf Ho Ha Hs|w1 p1 w2 res w3 r out cs Hf Ho Ha Hs Hr]; apply (direct_pmap _ _ _ _ _ _ _ _ _ U1 U2 _ Hf).
  - intros cls'. unfold ends. auto.
  - intros cls' j Hj. eapply (direct_down ls regs p1) with (c := MakeClient 100005 3); [exact Ht|exact (pr_ok _ _ _ _ _ _ Hp)|exact (pr_enc _ _ _ _ _ _ Hp)| |exact (pr_size _ _ _ _ _ _ Hp)|exact Hj|reflexivity|].
    + destruct (pr_resp _ _ _ _ _ _ Hp) as [-> ->]. exact (pr_fresh _ _ _ _ _ _ Hp).
    + cbn [direct]. unfold ends. auto.
  - intros cls' j Hj. eapply (direct_call ls regs p1 rfc1813_env mnt 100005 3 mount_table); [exact Ho|exact Hp|exact Hin|exact Ha|exact Hj|reflexivity|reflexivity|reflexivity|].
    cbv beta iota. rewrite (proj2 (Z.eqb_neq _ _) Hs). cbn [direct]. unfold ends. auto.
  - intros cls' j Hj. eapply (direct_call ls regs p1 rfc1813_env mnt 100005 3 mount_table); [exact Ho|exact Hp|exact Hin|exact Ha|exact Hj|reflexivity|reflexivity|reflexivity|].
    cbv beta iota. rewrite (proj2 (Z.eqb_eq _ _) Hs). cbv zeta.
    assert (Hroot : fh_ok (root_fh res)).
    { apply root_shape; [|exact Hs]. destruct Ho as (_ & Ho & Hnd & _). exact (applies_shape _ _ _ _ _ _ _ _ _ _ _ Ho Hnd Hin Ha). }
    apply direct_prints. cbn [direct d_w d_conns d_clients d_out app].
    pose proof (fun cls pre => direct_mounted (root_fh res) w2 w3 r out [None; Some p1] cls pre cs Hroot Hr) as K.
    cbn [app] in K |- *. match goal with |- context [mkDsys _ _ ?c ?pre] => specialize (K c pre) end. rewrite <- app_assoc in K. exact K.
Qed.

Lemma direct_set prog port setit fail k w w' b cs cls out Q : u32 prog -> u32 port -> sets pm setit prog port w w' b ->
  (forall cls', direct ls regs (k b) (mkDsys w' (cs ++ [None]) cls' out) Q) ->
  direct ls regs (pmap_set_unset prog 3 port setit fail k) (mkDsys w cs cls out) Q.
Proof.
  intros Hp Hv Ha Hk. unfold pmap_set_unset.
  assert (L : ls 111 <> None) by exact (proj1 portmapper).
  assert (U3 : u32 3) by (unfold u32; lia). assert (Us : u32 (if setit then 1 else 2)) by (unfold u32; destruct setit; lia).
  cbn [direct]. destruct (ls 111) as [srv|]; [clear L|contradiction]. cbn [d_w d_conns d_clients d_out].
  split; [exact u32_100000|]. split; [exact u32_2|].
  eapply (direct_call ls regs 111 rpc_env pm 100000 2 pmap_table) with (m := if setit then "PMAPPROC_SET" else "PMAPPROC_UNSET");
    [exact portmapper|exact (pmap_proper _ prog 3 port "Xbool" _ _ Us Hp U3 Hv (or_intror eq_refl))| |exact Ha|apply nth_at|apply nth_at|reflexivity|reflexivity|].
  - destruct setit; [right; left; reflexivity|do 2 right; left; reflexivity].
  - cbn [direct d_w d_conns d_clients d_out bool_of]. rewrite (set_nth_at None cs). apply Hk.
Qed.
Lemma direct_server port w w' r : u32 port -> server_run pm port w w' r ->
  direct ls regs (ex_server port) (dsys0 w) (fun d r' => d_w d = w' /\ r' = r /\ d_out d = [] /\ Forall (fun c => c = None) (d_conns d)).
Proof.
  intros Up H. unfold ex_server, dsys0. assert (U1 : u32 100005) by (unfold u32; lia). assert (U2 : u32 100003) by (unfold u32; lia). assert (U0 := u32_0).
  destruct H as [w1 b1 w2 H1 H2|w1 b1 w2 w3 b3 w4 w5 b5 H1 H2 H3 H4 H5|w1 b1 w2 w3 b3 w4 H1 H2 H3 H4]; (eapply direct_set; [exact U1|exact U0|exact H1|]); intros c1; (eapply direct_set; [exact U1|exact Up|exact H2|]); intros c2.
  - cbn. split; [reflexivity|]. split; [reflexivity|]. split; [reflexivity|]. repeat constructor.
  - cbv zeta iota beta. eapply direct_set; [exact U2|exact U0|exact H3|]. intros c3. eapply direct_set; [exact U2|exact Up|exact H4|]. intros c4.
    cbv iota beta. eapply direct_set; [exact U1|exact Up|exact H5|]. intros c5. cbn. split; [reflexivity|]. split; [reflexivity|]. split; [reflexivity|]. repeat constructor.
  - cbv zeta iota beta. eapply direct_set; [exact U2|exact U0|exact H3|]. intros c3. eapply direct_set; [exact U2|exact Up|exact H4|]. intros c4.
    cbn. split; [reflexivity|]. split; [reflexivity|]. split; [reflexivity|]. repeat constructor.
Qed.
End Progs.

Section Remote.
Context {W : Type}.
Variables (ls : listeners W) (regs : Z -> list (registration W)) (pm mnt nfs : object W) (ch1 ch2 : nat -> list byte -> list (list byte)).
Hypotheses (HL : listening ls regs) (H1 : forall i, chunker (ch1 i)) (H2 : forall i, chunker (ch2 i)).
Hypothesis portmapper : offers ls regs 111 rpc_env pm 100000 2 pmap_table.

Lemma client_remote w w' r out cs : client_run ls regs pm mnt nfs w w' r out cs ->
  exists N y', (y_w y' = w' /\ y_out y' = out /\ map (option_map fst) (y_conns y') = cs) /\
    forall n, (N <= n)%nat -> remote n ls ch1 ch2 ex_client (sys0 w) y' r.
Proof.
  intros H. destruct (transparent0 ls regs ch1 ch2 HL H1 H2 ex_client w _ (direct_client ls regs pm mnt nfs portmapper w w' r out cs H)) as (N & y' & r' & (E1 & -> & E2 & E3) & R).
  exists N, y'. auto.
Qed.
Lemma server_remote port w w' r : u32 port -> server_run pm port w w' r ->
  exists N y', (y_w y' = w' /\ y_out y' = [] /\ Forall (fun c => c = None) (y_conns y')) /\
    forall n, (N <= n)%nat -> remote n ls ch1 ch2 (ex_server port) (sys0 w) y' r.
Proof.
  intros Hp H. destruct (transparent0 ls regs ch1 ch2 HL H1 H2 (ex_server port) w _ (direct_server ls regs pm portmapper port w w' r Hp H)) as (N & y' & r' & (E1 & -> & E2 & E3) & R).
  exists N, y'. split; [|exact R]. split; [exact E1|]. split; [exact E2|]. cbn in E3. rewrite Forall_map in E3. eapply Forall_impl; [|exact E3].
  intros [c|] Hc; [discriminate Hc|reflexivity].
Qed.
End Remote.
