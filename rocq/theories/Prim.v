(** What each primitive of xdr/lib.go does, as equations on reader and writer states. *)
From Verif Require Import Bytes XdrLib Types Interp Spec.
Open Scope string_scope.
Open Scope Z_scope.
Open Scope list_scope.

Notation RD b := (mkXst None true b).
Notation WR b := (mkXst None false b).

Lemma pow31 : 2 ^ 31 = 2147483648. Proof. reflexivity. Qed.
Lemma pow32 : 2 ^ 32 = 4294967296. Proof. reflexivity. Qed.
Lemma pow63 : 2 ^ 63 = 9223372036854775808. Proof. reflexivity. Qed.
Lemma pow64 : 2 ^ 64 = 18446744073709551616. Proof. reflexivity. Qed.

Lemma Encoding_W b : Encoding (WR b) = true.
Proof. reflexivity. Qed.
Lemma Encoding_R b : Encoding (RD b) = false.
Proof. reflexivity. Qed.
Lemma Decoding_R b : Decoding (RD b) = true.
Proof. reflexivity. Qed.

(** ** Padding *)
Lemma pad_make_zeros n : pad_make n = zeros (padlen n).
Proof.
  unfold pad_make, padlen. rewrite !Z.rem_mod_nonneg; try lia.
  - reflexivity.
  - pose proof (Z.rem_bound_pos (Z.of_nat n) 4). lia.
Qed.

Lemma rem4_padlen n : (Z.rem (Z.of_nat n) 4 =? 0) = true -> padlen n = 0%nat.
Proof.
  intros H. apply Z.eqb_eq in H. apply padlen_0.
  rewrite Z.rem_mod_nonneg in H by lia. exact H.
Qed.

Lemma pad_unique n k :
  (k < 4)%nat -> Z.of_nat (n + k) mod 4 = 0 -> k = padlen n.
Proof. unfold padlen. intros. Z.div_mod_to_equations. lia. Qed.

Lemma Forall_zeros l : Forall (fun b => b = x00) l -> l = zeros (List.length l).
Proof. induction 1; cbn; [reflexivity|]. subst. f_equal. exact IHForall. Qed.

Lemma zeros_length n : List.length (zeros n) = n.
Proof. apply repeat_length. Qed.
Lemma zeros_Forall n : Forall (fun b => b = x00) (zeros n).
Proof. induction n; cbn; auto. Qed.

Lemma is_pad_len p n pad : is_pad p n pad -> List.length pad = padlen n.
Proof. intros (H1 & H2 & _). apply pad_unique; assumption. Qed.

Lemma is_pad_zero p n pad : pad_zero p = true -> is_pad p n pad -> pad = zeros (padlen n).
Proof.
  intros Hp H. pose proof (is_pad_len _ _ _ H) as Hl. destruct H as (_ & _ & H).
  rewrite <- Hl. apply Forall_zeros. auto.
Qed.

Lemma is_pad_intro p n pad :
  List.length pad = padlen n -> (pad_zero p = true -> Forall (fun b => b = x00) pad) ->
  is_pad p n pad.
Proof.
  intros Hl Hz. split; [|split]; auto; rewrite Hl.
  - apply padlen_lt.
  - apply padlen_mod.
Qed.

Lemma is_pad_zeros p n : is_pad p n (zeros (padlen n)).
Proof. apply is_pad_intro; [apply zeros_length|intros _; apply zeros_Forall]. Qed.

(** ** xdrRW, xdrR *)
Lemma xdrRW_write b v : xdrRW (WR b) v = (WR (b ++ v), v).
Proof. reflexivity. Qed.

Lemma xdrRW_read h rest v :
  List.length h = List.length v -> xdrRW (RD (h ++ rest)) v = (RD rest, h).
Proof.
  intros Hl. unfold xdrRW. cbn [x_err x_reader x_buf].
  assert (Hm : Nat.min (List.length v) (List.length (h ++ rest)) = List.length h)
    by (rewrite app_length; lia).
  rewrite Hm.
  destruct (Nat.ltb_spec (List.length h) (List.length v)); [lia|].
  rewrite (skipn_all2 v) by lia.
  rewrite firstn_app, Nat.sub_diag, firstn_O, firstn_all, !app_nil_r.
  unfold set_buf. cbn [x_err x_reader].
  rewrite skipn_app, Nat.sub_diag, skipn_O, skipn_all. reflexivity.
Qed.

Lemma xdrRW_short b v :
  (List.length b < List.length v)%nat ->
  xdrRW (RD b) v
  = (mkXst (Some (ENotEnoughGot (zlen v) (zlen b))) true [], b ++ skipn (List.length b) v).
Proof.
  intros Hl. unfold xdrRW. cbn [x_err x_reader x_buf].
  replace (Nat.min (List.length v) (List.length b)) with (List.length b) by lia.
  destruct (Nat.ltb_spec (List.length b) (List.length v)); [|lia].
  rewrite firstn_all, skipn_all. reflexivity.
Qed.

Lemma xdrRW_err s v e : x_err s = Some e -> xdrRW s v = (s, v).
Proof. intros H. unfold xdrRW. rewrite H. reflexivity. Qed.

Lemma split_at (b : list byte) k :
  (List.length b < k)%nat \/ exists h rest, b = h ++ rest /\ List.length h = k.
Proof.
  destruct (Nat.ltb_spec (List.length b) k); [left; lia|right].
  exists (firstn k b), (skipn k b). split.
  - symmetry. apply firstn_skipn.
  - apply firstn_length_le. lia.
Qed.

Lemma xdrR_ok h rest n :
  zlen h = n -> xdrR (RD (h ++ rest)) n = (RD rest, Some h).
Proof.
  intros Hl. unfold xdrR. cbn [x_buf].
  destruct (Z.ltb_spec (zlen (h ++ rest)) n).
  - rewrite zlen_app in H. pose proof (zlen_nonneg rest). lia.
  - cbn [x_err]. unfold set_buf. cbn [x_err x_reader x_buf].
    assert (Hn : Z.to_nat n = List.length h) by (unfold zlen in Hl; lia).
    rewrite Hn, skipn_app, Nat.sub_diag, skipn_O, skipn_all.
    rewrite firstn_app, Nat.sub_diag, firstn_O, firstn_all, app_nil_r. reflexivity.
Qed.

Lemma xdrR_short b n :
  zlen b < n -> xdrR (RD b) n = (mkXst (Some (ENotEnoughHave n (zlen b))) true b, None).
Proof.
  intros H. unfold xdrR. cbn [x_buf].
  destruct (Z.ltb_spec (zlen b) n); [reflexivity|lia].
Qed.

Lemma xdrR_err e rd b n :
  exists e', xdrR (mkXst (Some e) rd b) n = (mkXst (Some e') rd b, None).
Proof.
  unfold xdrR. cbn [x_buf]. destruct (zlen b <? n); eexists; reflexivity.
Qed.

(** ** Sticky errors *)
Lemma XdrU32_err s v e : x_err s = Some e -> XdrU32 s v = (s, v).
Proof. intros H. unfold XdrU32. rewrite H. reflexivity. Qed.
Lemma XdrS32_err s v e : x_err s = Some e -> XdrS32 s v = (s, v).
Proof. intros H. unfold XdrS32. rewrite H. reflexivity. Qed.
Lemma XdrU64_err s v e : x_err s = Some e -> XdrU64 s v = (s, v).
Proof. intros H. unfold XdrU64. rewrite H. reflexivity. Qed.
Lemma XdrS64_err s v e : x_err s = Some e -> XdrS64 s v = (s, v).
Proof. intros H. unfold XdrS64. rewrite H. reflexivity. Qed.
Lemma XdrBool_err s v e : x_err s = Some e -> XdrBool s v = (s, v).
Proof. intros H. unfold XdrBool. rewrite H. reflexivity. Qed.
Lemma XdrArray_err s v e : x_err s = Some e -> XdrArray s v = (s, v).
Proof. intros H. unfold XdrArray. rewrite H. reflexivity. Qed.
Lemma XdrVarArray_err s m v e : x_err s = Some e -> XdrVarArray s m v = (s, v).
Proof. intros H. unfold XdrVarArray. rewrite H. reflexivity. Qed.
Lemma XdrString_err s m v e : x_err s = Some e -> XdrString s m v = (s, v).
Proof. intros H. unfold XdrString. rewrite H. reflexivity. Qed.
Lemma EncodingSetSize_err s a l e : x_err s = Some e -> EncodingSetSize s a l = (s, a).
Proof. intros H. unfold EncodingSetSize. rewrite H. reflexivity. Qed.

(** ** Writing *)
Lemma XdrU32_W b z : XdrU32 (WR b) z = (WR (b ++ put_u32 z), z).
Proof. reflexivity. Qed.
Lemma XdrS32_W b z : XdrS32 (WR b) z = (WR (b ++ put_u32 (to_u32 z)), z).
Proof. reflexivity. Qed.
Lemma XdrU64_W b z : XdrU64 (WR b) z = (WR (b ++ put_u64 z), z).
Proof. reflexivity. Qed.
Lemma XdrS64_W b z : XdrS64 (WR b) z = (WR (b ++ put_u64 (to_u64 z)), z).
Proof. reflexivity. Qed.
Lemma XdrBool_W b v : XdrBool (WR b) v = (WR (b ++ put_u32 (if v then 1 else 0)), v).
Proof. destruct v; reflexivity. Qed.
Lemma XdrArray_W b v : XdrArray (WR b) v = (WR (b ++ v ++ zeros (padlen (List.length v))), v).
Proof.
  unfold XdrArray. cbn [x_err]. rewrite xdrRW_write, pad_make_zeros.
  unfold zlen. destruct (Z.rem (Z.of_nat (List.length v)) 4 =? 0) eqn:E; cbn [negb].
  - rewrite (rem4_padlen _ E). cbn. rewrite app_nil_r. reflexivity.
  - rewrite xdrRW_write. cbn [fst]. rewrite app_assoc. reflexivity.
Qed.

(** The length check shared by XdrVarArray and XdrString, as a Boolean. *)
Definition fits (m : Z) (n : Z) : bool :=
  (n <=? MaxUint32) && ((m <? 0) || (n <=? m)).

Lemma fits_neg m n :
  (n >? MaxUint32) || ((m >=? 0) && (n >? m)) = negb (fits m n).
Proof.
  unfold fits. rewrite !Z.gtb_ltb, Z.geb_leb.
  rewrite negb_andb, negb_orb, <- !Z.ltb_antisym, <- Z.leb_antisym. reflexivity.
Qed.

Lemma fits_within m n : max_ok m -> 0 <= n -> (fits (maxlen_of m) n = true <-> within m n).
Proof.
  unfold fits, within, max_ok, maxlen_of, MaxUint32. intros Hm Hn.
  rewrite andb_true_iff, orb_true_iff, Z.ltb_lt, !Z.leb_le.
  rewrite pow32; destruct m; lia.
Qed.


Definition vfin (xs : xst) (v : option (list byte)) : xst * option (list byte) :=
        if negb (Z.rem (zlen (bytes_of v)) 4 =? 0)
        then (fst (xdrRW xs (pad_make (List.length (bytes_of v)))), v)
        else (xs, v).
Lemma XVA b m o : XdrVarArray (WR b) m o =
   if (zlen (bytes_of o) >? MaxUint32)
           || ((m >=? 0) && (zlen (bytes_of o) >? m))
        then (SetError (WR b) "var array too large", o)
        else vfin (WR ((b ++ put_u32 (to_u32 (zlen (bytes_of o)))) ++ bytes_of o)) o.
Proof. reflexivity. Qed.
Lemma vfin_W b o : vfin (WR b) o = (WR (b ++ zeros (padlen (List.length (bytes_of o)))), o).
Proof.
  unfold vfin. rewrite pad_make_zeros. unfold zlen.
  destruct (Z.rem (Z.of_nat (List.length (bytes_of o))) 4 =? 0) eqn:E; cbn [negb].
  - rewrite (rem4_padlen _ E). cbn [zeros repeat]. rewrite app_nil_r. reflexivity.
  - rewrite xdrRW_write. reflexivity.
Qed.
Lemma to_u32_fits m n : 0 <= n -> fits m n = true -> to_u32 n = n.
Proof.
  intros Hn F. unfold fits in F. apply andb_true_iff in F. destruct F as [F _].
  apply Z.leb_le in F. apply Z.mod_small. split; [exact Hn|].
  apply Z.le_lt_trans with MaxUint32; [exact F|reflexivity].
Qed.
Lemma XdrVarArray_W b m o :
  XdrVarArray (WR b) m o =
  if fits m (zlen (bytes_of o))
  then (WR (b ++ put_u32 (zlen (bytes_of o)) ++ bytes_of o
              ++ zeros (padlen (List.length (bytes_of o)))), o)
  else (SetError (WR b) "var array too large", o).
Proof.
  rewrite XVA, fits_neg, vfin_W.
  destruct (fits m (zlen (bytes_of o))) eqn:F; cbn [negb]; [|reflexivity].
  rewrite (to_u32_fits _ _ (zlen_nonneg _) F).
  rewrite !app_assoc. reflexivity.
Qed.

Lemma XST b m v : XdrString (WR b) m v =
   if (zlen v >? MaxUint32) || ((m >=? 0) && (zlen v >? m))
        then (SetError (WR b) "string too large", v)
        else (WR (((b ++ put_u32 (to_u32 (zlen v))) ++ v) ++ pad_make (List.length v)), v).
Proof. reflexivity. Qed.
Lemma XdrString_W b m v :
  XdrString (WR b) m v =
  if fits m (zlen v)
  then (WR (b ++ put_u32 (zlen v) ++ v ++ zeros (padlen (List.length v))), v)
  else (SetError (WR b) "string too large", v).
Proof.
  rewrite XST, fits_neg, pad_make_zeros.
  destruct (fits m (zlen v)) eqn:F; cbn [negb]; [|reflexivity].
  rewrite (to_u32_fits _ _ (zlen_nonneg _) F).
  rewrite !app_assoc. reflexivity.
Qed.

(** ** Reading *)
Lemma XdrU32_R h rest z : List.length h = 4%nat -> XdrU32 (RD (h ++ rest)) z = (RD rest, be_val h).
Proof.
  intros Hl. unfold XdrU32. cbn [x_err]. rewrite Encoding_R.
  rewrite xdrRW_read by (rewrite Hl; reflexivity). cbn. f_equal. apply get_u32_val. exact Hl.
Qed.
Lemma XdrS32_R h rest z :
  List.length h = 4%nat -> XdrS32 (RD (h ++ rest)) z = (RD rest, to_s32 (be_val h)).
Proof.
  intros Hl. unfold XdrS32. cbn [x_err]. rewrite Encoding_R.
  rewrite xdrRW_read by (rewrite Hl; reflexivity). cbn [Decoding x_err x_reader].
  rewrite get_u32_val by exact Hl. reflexivity.
Qed.
Lemma XdrU64_R h rest z : List.length h = 8%nat -> XdrU64 (RD (h ++ rest)) z = (RD rest, be_val h).
Proof.
  intros Hl. unfold XdrU64. cbn [x_err]. rewrite Encoding_R.
  rewrite xdrRW_read by (rewrite Hl; reflexivity). cbn. f_equal. apply get_u64_val. exact Hl.
Qed.
Lemma XdrS64_R h rest z :
  List.length h = 8%nat -> XdrS64 (RD (h ++ rest)) z = (RD rest, to_s64 (be_val h)).
Proof.
  intros Hl. unfold XdrS64. cbn [x_err]. rewrite Encoding_R.
  rewrite xdrRW_read by (rewrite Hl; reflexivity). cbn [Decoding x_err x_reader].
  rewrite get_u64_val by exact Hl. reflexivity.
Qed.
Lemma XdrBool_R h rest v :
  List.length h = 4%nat -> XdrBool (RD (h ++ rest)) v = (RD rest, negb (be_val h =? 0)).
Proof.
  intros Hl. unfold XdrBool. cbn [x_err]. rewrite Encoding_R.
  rewrite xdrRW_read by (rewrite Hl; reflexivity). cbn [Decoding x_err x_reader].
  rewrite get_u32_val by exact Hl. destruct (be_val h =? 0); reflexivity.
Qed.

(** Not enough bytes: error, nothing unread, target unchanged. *)
Lemma XdrU32_short b z : (List.length b < 4)%nat ->
  XdrU32 (RD b) z = (mkXst (Some (ENotEnoughGot 4 (zlen b))) true [], z).
Proof.
  intros Hl. unfold XdrU32. cbn [x_err]. rewrite Encoding_R.
  rewrite xdrRW_short by (rewrite zeros_length; lia). reflexivity.
Qed.
Lemma XdrS32_short b z : (List.length b < 4)%nat ->
  XdrS32 (RD b) z = (mkXst (Some (ENotEnoughGot 4 (zlen b))) true [], z).
Proof.
  intros Hl. unfold XdrS32. cbn [x_err]. rewrite Encoding_R.
  rewrite xdrRW_short by (rewrite zeros_length; lia). reflexivity.
Qed.
Lemma XdrU64_short b z : (List.length b < 8)%nat ->
  XdrU64 (RD b) z = (mkXst (Some (ENotEnoughGot 8 (zlen b))) true [], z).
Proof.
  intros Hl. unfold XdrU64. cbn [x_err]. rewrite Encoding_R.
  rewrite xdrRW_short by (rewrite zeros_length; lia). reflexivity.
Qed.
Lemma XdrS64_short b z : (List.length b < 8)%nat ->
  XdrS64 (RD b) z = (mkXst (Some (ENotEnoughGot 8 (zlen b))) true [], z).
Proof.
  intros Hl. unfold XdrS64. cbn [x_err]. rewrite Encoding_R.
  rewrite xdrRW_short by (rewrite zeros_length; lia). reflexivity.
Qed.
Lemma XdrBool_short b v : (List.length b < 4)%nat ->
  XdrBool (RD b) v = (mkXst (Some (ENotEnoughGot 4 (zlen b))) true [], v).
Proof.
  intros Hl. unfold XdrBool. cbn [x_err]. rewrite Encoding_R.
  rewrite xdrRW_short by (rewrite zeros_length; lia). reflexivity.
Qed.

Lemma XdrArray_R h pad rest v :
  List.length h = List.length v -> List.length pad = padlen (List.length h) ->
  XdrArray (RD (h ++ pad ++ rest)) v = (RD rest, h).
Proof.
  intros Hl Hp. unfold XdrArray. cbn [x_err]. rewrite xdrRW_read by exact Hl.
  unfold zlen. rewrite <- Hl.
  destruct (Z.rem (Z.of_nat (List.length h)) 4 =? 0) eqn:E; cbn [negb].
  - rewrite (rem4_padlen _ E) in Hp. destruct pad; [reflexivity|discriminate].
  - rewrite xdrRW_read; [reflexivity|]. rewrite pad_make_zeros, zeros_length. exact Hp.
Qed.

Lemma XdrArray_short b v :
  (List.length b < List.length v + padlen (List.length v))%nat ->
  exists e v', XdrArray (RD b) v = (mkXst (Some e) true [], v')
               /\ List.length v' = List.length v.
Proof.
  intros H. unfold XdrArray. cbn [x_err].
  destruct (split_at b (List.length v)) as [Hs|(h & r & -> & Hl)].
  - rewrite xdrRW_short by exact Hs.
    destruct (negb _); cbn [fst].
    + erewrite xdrRW_err by reflexivity. do 2 eexists. split; [reflexivity|].
      rewrite app_length, skipn_length. lia.
    + do 2 eexists. split; [reflexivity|]. rewrite app_length, skipn_length. lia.
  - rewrite xdrRW_read by exact Hl. rewrite app_length in H. unfold zlen.
    destruct (Z.rem (Z.of_nat (List.length v)) 4 =? 0) eqn:E; cbn [negb].
    + rewrite (rem4_padlen _ E) in H. lia.
    + rewrite xdrRW_short by (rewrite pad_make_zeros, zeros_length; lia).
      do 2 eexists. split; [reflexivity|exact Hl].
Qed.

(** The check made on an incoming length. *)
Definition in_bound (m n : Z) : bool := (m <? 0) || (n <=? m).

Lemma in_bound_neg m n : 0 <= n ->
  ((m >=? 0) && (n >? m)) || (n <? 0) = negb (in_bound m n).
Proof.
  intros Hn. unfold in_bound. rewrite Z.gtb_ltb, Z.geb_leb.
  destruct (Z.ltb_spec n 0); [lia|]. rewrite orb_false_r.
  rewrite negb_orb, <- Z.ltb_antisym, <- Z.leb_antisym. reflexivity.
Qed.

Lemma in_bound_within m n : max_ok m -> n < 2 ^ 32 ->
  (in_bound (maxlen_of m) n = true <-> within m n).
Proof.
  unfold in_bound, within, max_ok, maxlen_of. intros Hm Hn.
  rewrite orb_true_iff, Z.ltb_lt, Z.leb_le. destruct m; lia.
Qed.

Lemma be_val_4 h : List.length h = 4%nat -> 0 <= be_val h < 2 ^ 32.
Proof. intros Hl. pose proof (be_val_range h) as H. rewrite Hl in H. exact H. Qed.
Lemma be_val_8 h : List.length h = 8%nat -> 0 <= be_val h < 2 ^ 64.
Proof. intros Hl. pose proof (be_val_range h) as H. rewrite Hl in H. exact H. Qed.

Lemma XVA_R b m o : XdrVarArray (RD b) m o =
  let '(xs1, szbuf) := xdrRW (RD b) (zeros 4) in
  if ((m >=? 0) && (get_u32 szbuf >? m)) || (get_u32 szbuf <? 0)
  then (SetError xs1 "var array too large", o)
  else let '(xs2, v') := xdrR xs1 (get_u32 szbuf) in vfin xs2 v'.
Proof. reflexivity. Qed.

Lemma vfin_R h pad rest :
  List.length pad = padlen (List.length h) -> vfin (RD (pad ++ rest)) (Some h) = (RD rest, Some h).
Proof.
  intros Hp. unfold vfin. cbn [bytes_of]. unfold zlen.
  destruct (Z.rem (Z.of_nat (List.length h)) 4 =? 0) eqn:E; cbn [negb].
  - rewrite (rem4_padlen _ E) in Hp. destruct pad; [reflexivity|discriminate].
  - rewrite xdrRW_read; [reflexivity|]. rewrite pad_make_zeros, zeros_length. exact Hp.
Qed.

Lemma XdrVarArray_R hd h pad rest m o :
  List.length hd = 4%nat -> be_val hd = zlen h -> List.length pad = padlen (List.length h) ->
  in_bound m (zlen h) = true ->
  XdrVarArray (RD (hd ++ h ++ pad ++ rest)) m o = (RD rest, Some h).
Proof.
  intros Hl Hv Hp Hb. rewrite XVA_R.
  rewrite xdrRW_read by exact Hl. rewrite get_u32_val by exact Hl. rewrite Hv.
  rewrite in_bound_neg by apply zlen_nonneg. rewrite Hb. cbn [negb].
  rewrite xdrR_ok by reflexivity. apply vfin_R. exact Hp.
Qed.

(** Over-long: error, only the 4 length bytes consumed, target unchanged. *)
Lemma XdrVarArray_over hd rest m o :
  List.length hd = 4%nat -> in_bound m (be_val hd) = false ->
  XdrVarArray (RD (hd ++ rest)) m o = (SetError (RD rest) "var array too large", o).
Proof.
  intros Hl Hb. rewrite XVA_R.
  rewrite xdrRW_read by exact Hl. rewrite get_u32_val by exact Hl.
  rewrite in_bound_neg by apply (be_val_4 _ Hl). rewrite Hb. reflexivity.
Qed.

Definition suffix (a b : list byte) : Prop := exists w, b = w ++ a.
Lemma suffix_refl b : suffix b b.
Proof. exists []. reflexivity. Qed.
Lemma suffix_nil b : suffix [] b.
Proof. exists b. rewrite app_nil_r. reflexivity. Qed.
Lemma suffix_trans a b c : suffix a b -> suffix b c -> suffix a c.
Proof. intros [w ->] [w' ->]. exists (w' ++ w). rewrite app_assoc. reflexivity. Qed.
Lemma suffix_app w b : suffix b (w ++ b).
Proof. exists w. reflexivity. Qed.
#[global] Hint Resolve suffix_refl suffix_nil suffix_app : core.

(** Every failing read of a variable opaque. *)
Lemma XdrVarArray_fail b m o :
  (List.length b < 4)%nat
  \/ (exists hd r, b = hd ++ r /\ List.length hd = 4%nat /\
        (in_bound m (be_val hd) = false
         \/ zlen r < be_val hd + Z.of_nat (padlen (Z.to_nat (be_val hd))))) ->
  exists e r o', XdrVarArray (RD b) m o = (mkXst (Some e) true r, o') /\ suffix r b.
Proof.
  intros H. rewrite XVA_R.
  destruct H as [Hs|(hd & r & -> & Hl & H)].
  - rewrite xdrRW_short by exact Hs.
    destruct (_ || _) eqn:Ho.
    + do 3 eexists. split; [reflexivity|]. auto.
    + match goal with |- context [xdrR (mkXst (Some ?e) ?r ?b) ?n] =>
        destruct (xdrR_err e r b n) as [e' ->] end.
      do 3 eexists. split; [reflexivity|]. auto.
  - rewrite xdrRW_read by exact Hl. rewrite get_u32_val by exact Hl.
    pose proof (be_val_4 _ Hl) as Hr.
    rewrite in_bound_neg by lia.
    destruct (in_bound m (be_val hd)) eqn:Hb; cbn [negb].
    2:{ do 3 eexists. split; [reflexivity|]. cbn. auto. }
    destruct H as [H|H]; [discriminate|].
    destruct (Z.ltb_spec (zlen r) (be_val hd)) as [Hlt|Hge].
    { rewrite xdrR_short by exact Hlt. do 3 eexists. split; [reflexivity|]. auto. }
    destruct (split_at r (Z.to_nat (be_val hd))) as [Hs|(h & q & -> & Hh)].
    { unfold zlen in Hge. lia. }
    rewrite xdrR_ok by (unfold zlen; lia). unfold vfin. cbn [bytes_of].
    rewrite zlen_app in H. rewrite Hh. unfold zlen in *. rewrite Hh in *.
    destruct (Z.rem _ 4 =? 0) eqn:E.
    { rewrite (rem4_padlen _ E) in H. lia. }
    cbn [negb]. rewrite xdrRW_short.
    { do 3 eexists. split; [reflexivity|]. auto. }
    rewrite pad_make_zeros, zeros_length. lia.
Qed.

Lemma XST_R b m o : XdrString (RD b) m o =
  let '(xs1, szbuf) := xdrRW (RD b) (zeros 4) in
  if ((m >=? 0) && (get_u32 szbuf >? m)) || (get_u32 szbuf <? 0)
  then (SetError xs1 "string too large", o)
  else let '(xs2, v') := xdrR xs1 (get_u32 szbuf) in
       (fst (xdrRW xs2 (pad_make (List.length (bytes_of v')))), bytes_of v').
Proof. reflexivity. Qed.

Lemma XdrString_R hd h pad rest m o :
  List.length hd = 4%nat -> be_val hd = zlen h -> List.length pad = padlen (List.length h) ->
  in_bound m (zlen h) = true ->
  XdrString (RD (hd ++ h ++ pad ++ rest)) m o = (RD rest, h).
Proof.
  intros Hl Hv Hp Hb. rewrite XST_R.
  rewrite xdrRW_read by exact Hl. rewrite get_u32_val by exact Hl. rewrite Hv.
  rewrite in_bound_neg by apply zlen_nonneg. rewrite Hb. cbn [negb].
  rewrite xdrR_ok by reflexivity. cbn [bytes_of].
  rewrite xdrRW_read; [reflexivity|]. rewrite pad_make_zeros, zeros_length. exact Hp.
Qed.

Lemma XdrString_over hd rest m o :
  List.length hd = 4%nat -> in_bound m (be_val hd) = false ->
  XdrString (RD (hd ++ rest)) m o = (SetError (RD rest) "string too large", o).
Proof.
  intros Hl Hb. rewrite XST_R.
  rewrite xdrRW_read by exact Hl. rewrite get_u32_val by exact Hl.
  rewrite in_bound_neg by apply (be_val_4 _ Hl). rewrite Hb. reflexivity.
Qed.

Lemma XdrString_fail b m o :
  (List.length b < 4)%nat
  \/ (exists hd r, b = hd ++ r /\ List.length hd = 4%nat /\
        (in_bound m (be_val hd) = false
         \/ zlen r < be_val hd + Z.of_nat (padlen (Z.to_nat (be_val hd))))) ->
  exists e r o', XdrString (RD b) m o = (mkXst (Some e) true r, o') /\ suffix r b.
Proof.
  intros H. rewrite XST_R.
  destruct H as [Hs|(hd & r & -> & Hl & H)].
  - rewrite xdrRW_short by exact Hs.
    destruct (_ || _) eqn:Ho.
    + do 3 eexists. split; [reflexivity|]. auto.
    + match goal with |- context [xdrR (mkXst (Some ?e) ?r ?b) ?n] =>
        destruct (xdrR_err e r b n) as [e' ->] end.
      do 3 eexists. split; [reflexivity|]. auto.
  - rewrite xdrRW_read by exact Hl. rewrite get_u32_val by exact Hl.
    pose proof (be_val_4 _ Hl) as Hr.
    rewrite in_bound_neg by lia.
    destruct (in_bound m (be_val hd)) eqn:Hb; cbn [negb].
    2:{ do 3 eexists. split; [reflexivity|]. cbn. auto. }
    destruct H as [H|H]; [discriminate|].
    destruct (Z.ltb_spec (zlen r) (be_val hd)) as [Hlt|Hge].
    { rewrite xdrR_short by exact Hlt. cbn. do 3 eexists. split; [reflexivity|]. auto. }
    destruct (split_at r (Z.to_nat (be_val hd))) as [Hs|(h & q & -> & Hh)].
    { unfold zlen in Hge. lia. }
    rewrite xdrR_ok by (unfold zlen; lia). cbn [bytes_of].
    rewrite zlen_app in H. rewrite Hh. unfold zlen in *.
    rewrite xdrRW_short.
    { do 3 eexists. split; [reflexivity|]. auto. }
    rewrite pad_make_zeros, zeros_length. lia.
Qed.

(** Case analysis on the input of a variable-length read. *)
Lemma var_cases b m :
  (exists hd h pad rest, b = hd ++ h ++ pad ++ rest /\ List.length hd = 4%nat /\
     be_val hd = zlen h /\ List.length pad = padlen (List.length h) /\ in_bound m (zlen h) = true)
  \/ ((List.length b < 4)%nat
      \/ (exists hd r, b = hd ++ r /\ List.length hd = 4%nat /\
            (in_bound m (be_val hd) = false
             \/ zlen r < be_val hd + Z.of_nat (padlen (Z.to_nat (be_val hd)))))).
Proof.
  destruct (split_at b 4) as [Hs|(hd & r & -> & Hl)]; [right; left; exact Hs|].
  pose proof (be_val_4 _ Hl) as Hr.
  destruct (in_bound m (be_val hd)) eqn:Hb.
  2:{ right; right. exists hd, r. auto. }
  destruct (Z.ltb_spec (zlen r) (be_val hd + Z.of_nat (padlen (Z.to_nat (be_val hd))))) as [Hlt|Hge].
  { right; right. exists hd, r. auto. }
  left. unfold zlen in Hge.
  destruct (split_at r (Z.to_nat (be_val hd))) as [Hs|(h & q & -> & Hh)]; [lia|].
  rewrite app_length in Hge.
  destruct (split_at q (padlen (Z.to_nat (be_val hd)))) as [Hs|(pad & rest & -> & Hp)]; [lia|].
  exists hd, h, pad, rest. rewrite Hh. unfold zlen. rewrite Hh.
  assert (Hz : Z.of_nat (Z.to_nat (be_val hd)) = be_val hd) by lia.
  rewrite Hz. auto.
Qed.

(** ** Signed conversions *)
Lemma to_s32_range z : - 2 ^ 31 <= to_s32 z < 2 ^ 31.
Proof. unfold to_s32. rewrite ?pow31, ?pow32.
  Z.div_mod_to_equations. lia. Qed.
Lemma to_s64_range z : - 2 ^ 63 <= to_s64 z < 2 ^ 63.
Proof. unfold to_s64. rewrite ?pow63, ?pow64.
  Z.div_mod_to_equations. lia. Qed.
Lemma to_s32_mod z : to_s32 z mod 2 ^ 32 = z mod 2 ^ 32.
Proof. unfold to_s32. rewrite ?pow31, ?pow32.
  Z.div_mod_to_equations. lia. Qed.
Lemma to_s64_mod z : to_s64 z mod 2 ^ 64 = z mod 2 ^ 64.
Proof. unfold to_s64. rewrite ?pow63, ?pow64.
  Z.div_mod_to_equations. lia. Qed.
Lemma to_s32_id z : - 2 ^ 31 <= z < 2 ^ 31 -> to_s32 (z mod 2 ^ 32) = z.
Proof. unfold to_s32. rewrite ?pow31, ?pow32.
  intros. Z.div_mod_to_equations. lia. Qed.
Lemma to_s64_id z : - 2 ^ 63 <= z < 2 ^ 63 -> to_s64 (z mod 2 ^ 64) = z.
Proof. unfold to_s64. rewrite ?pow63, ?pow64.
  intros. Z.div_mod_to_equations. lia. Qed.
