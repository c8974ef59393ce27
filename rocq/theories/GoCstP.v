(** The parser of GoCst.v reads back every tree from its tokens. *)
From Verif Require Import GoLex XLex Gram GParse GoCst.
Open Scope string_scope.
Open Scope list_scope.

(** With every sufficient bound. *)
Definition evn (Q : nat -> Prop) : Prop := exists m, forall n, (m <= n)%nat -> Q n.
Definition gives {A} (p : nat -> option A) (a : A) : Prop := evn (fun n => p n = Some a).
Lemma gives_S {A} (p q : nat -> option A) a : (forall n, p (S n) = q n) -> gives q a -> gives p a.
Proof. intros H [m Hm]. exists (S m). intros [|n] Hn; [lia|]. rewrite H. apply Hm. lia. Qed.
Lemma gives_ret {A} (a : A) : gives (fun _ => Some a) a.
Proof. exists 0%nat. reflexivity. Qed.
Lemma gives_bind {A B} (p : nat -> option A) (k : nat -> A -> option B) a b :
  gives p a -> gives (fun n => k n a) b -> gives (fun n => pbind (p n) (k n)) b.
Proof. intros [m Hm] [m' Hm']. exists (m + m')%nat. intros n Hn. rewrite Hm by lia. cbn. apply Hm'. lia. Qed.

(** The next token is not one of these operators. *)
Definition hd_not (l : list string) (r : list gtok) : bool := match r with GOp o :: _ => negb (mem o l) | _ => true end.
Definition conts (lit : bool) : list string := [".";"[";"(";"!=";">";"<"] ++ if lit then ["{"] else [].
Definition stop (lit : bool) (r : list gtok) : bool := hd_not (conts lit) r.

Lemma hd_not_pop o l r : hd_not l r = true -> mem o l = true -> pop_ o r = None.
Proof.
  destruct r as [|[] r]; try reflexivity. cbn. intros H1 H2. destruct (String.eqb_spec s o) as [->|]; [|reflexivity]. rewrite H2 in H1. discriminate.
Qed.
Lemma pop_ok o r : pop_ o (GOp o :: r) = Some r.
Proof. cbn. rewrite String.eqb_refl. reflexivity. Qed.
Lemma pop_no o o' r : String.eqb o' o = false -> pop_ o (GOp o' :: r) = None.
Proof. intros H. cbn. rewrite H. reflexivity. Qed.
Lemma stop_ty lit r : stop lit r = true -> hd_not ["."] r = true.
Proof.
  unfold stop, hd_not. destruct r as [|[] r]; try reflexivity. cbn. destruct (String.eqb s "."); [discriminate|reflexivity].
Qed.
Lemma stop_lit r : stop true r = true -> stop false r = true.
Proof.
  unfold stop, hd_not. destruct r as [|[] r]; try reflexivity. cbn. repeat (destruct (String.eqb s _); [discriminate|]). reflexivity.
Qed.
Lemma stop_rel lit o r : stop lit (GOp o :: r) = true -> is_rel o = false.
Proof.
  unfold stop, is_rel. cbn. repeat (destruct (String.eqb o _); cbn; try discriminate). reflexivity.
Qed.

Ltac st := first [eapply gives_S; [intros; reflexivity|] | idtac].

(** ** Types *)
Scheme ty_m := Induction for T_ty Sort Prop with fields_m := Induction for T_fields Sort Prop.
Combined Scheme ty_mut from ty_m, fields_m.

Lemma psz_ok c t r : T_sz c t -> psz (t :: r) = Some (c, r).
Proof. intros []; reflexivity. Qed.
Lemma sz_not c t r : T_sz c t -> pop_ "]" (t :: r) = None.
Proof. intros []; reflexivity. Qed.

Lemma gives_eq {A} (p q : nat -> option A) a : (forall n, p n = q n) -> gives q a -> gives p a.
Proof. intros H [m Hm]. exists m. intros n Hn. rewrite H. apply Hm. exact Hn. Qed.

Lemma ty_fields :
  (forall t ts, T_ty t ts -> forall r, hd_not ["."] r = true -> gives (fun n => p_ty n (ts ++ r)) (t, r)) /\
  (forall fs ts, T_fields fs ts -> forall r, gives (fun n => p_fields n (ts ++ GOp "}" :: r)) (fs, GOp "}" :: r)).
Proof.
  apply ty_mut.
  - intros x r Hr. eapply gives_S; [intros n; cbn; rewrite (hd_not_pop "." _ _ Hr) by reflexivity; reflexivity|apply gives_ret].
  - intros p x r Hr. eapply gives_S; [intros n; reflexivity|apply gives_ret].
  - intros t ts Ht IH r Hr. eapply gives_S; [intros n; cbn; reflexivity|]. eapply gives_bind; [apply IH; exact Hr|]. apply gives_ret.
  - intros t ts Ht IH r Hr. eapply gives_S; [intros n; cbn; reflexivity|]. eapply gives_bind; [apply IH; exact Hr|]. apply gives_ret.
  - intros n ns t ts Hn Ht IH r Hr. eapply gives_S; [intros k; cbn - [pop_ psz]|].
    { rewrite (sz_not _ _ _ Hn), (psz_ok _ _ _ Hn). cbn - [p_ty]. reflexivity. }
    eapply gives_bind; [apply IH; exact Hr|]. apply gives_ret.
  - intros fs ts Hf IH r Hr. eapply gives_S; [intros n; cbn - [pop_]; rewrite pop_ok; cbn - [pop_ p_fields]; rewrite <- app_assoc; reflexivity|].
    eapply gives_bind; [apply IH|]. cbn. apply gives_ret.
  - intros r. eapply gives_S; [intros n; reflexivity|apply gives_ret].
  - intros x t ts Ht IH r. eapply gives_S; [intros n; cbn [p_fields p_ty pid psemi app pop_ pbind]; reflexivity|]. eapply gives_bind; [apply IH; reflexivity|]. cbn. apply gives_ret.
  - intros x t ts fs us Ht IH Hf IHf r. eapply gives_S; [intros n; cbn [p_fields p_ty pid psemi app pop_ pbind]; rewrite <- app_assoc; reflexivity|].
    eapply gives_bind; [apply IH; reflexivity|]. cbn [psemi pbind app]. eapply gives_bind; [apply IHf|]. apply gives_ret.
Qed.
Definition ty_ok := proj1 ty_fields.
Definition fields_ok := proj2 ty_fields.

(** ** Expressions *)
(** Tokens an expression can start with. *)
Definition starts (t : gtok) : bool :=
  match t with
  | GIdent _ | GInt _ | GStr _ => true
  | GOp o => mem o ["*"; "&"; "-"; "("; "["]
  | GKw w => String.eqb w "struct"
  | _ => false
  end.
Scheme prim_m := Induction for T_prim Sort Prop with un_m := Induction for T_un Sort Prop
  with ex_m := Induction for T_ex Sort Prop with args_m := Induction for T_args Sort Prop.
Combined Scheme ex_mut from prim_m, un_m, ex_m, args_m.
Definition begins (ts : list gtok) : Prop := exists t r, ts = t :: r /\ starts t = true.
Lemma begins_app ts us : begins ts -> begins (ts ++ us).
Proof. intros (t & r & -> & H). exists t, (r ++ us). auto. Qed.
Lemma ex_begins :
  (forall c ts, T_prim c ts -> begins ts) /\ (forall c ts, T_un c ts -> begins ts) /\ (forall c ts, T_ex c ts -> begins ts) /\
  (forall l ts, T_args l ts -> l <> [] -> begins ts).
Proof.
  apply ex_mut; intros; auto using begins_app; try (eexists; eexists; split; [reflexivity|reflexivity]).
  - eexists; eexists; split; [reflexivity|]. match goal with H : In _ _ |- _ => cbn in H; destruct H as [<-|[<-|[<-|[]]]]; reflexivity end.
  - congruence.
Qed.
Lemma begins_pop o ts r : begins ts -> mem o ["*"; "&"; "-"; "("; "["] = false -> pop_ o (ts ++ r) = None.
Proof.
  intros (t & u & -> & H) Ho. destruct t; try reflexivity. cbn [pop_ app]. destruct (String.eqb_spec s o) as [->|]; [|reflexivity]. cbn [starts] in H. congruence.
Qed.

Lemma post_stop lit c r : stop lit r = true -> gives (fun n => p_post n lit c r) (c, r).
Proof.
  intros H. eapply gives_S; [intros n|apply gives_ret]. cbn [p_post].
  rewrite (hd_not_pop "." _ _ H), (hd_not_pop "[" _ _ H), (hd_not_pop "(" _ _ H) by reflexivity.
  destruct (pop_ "{" r) as [r'|] eqn:E; [|reflexivity]. destruct lit; [|reflexivity].
  rewrite (hd_not_pop "{" _ _ H) in E by reflexivity. discriminate.
Qed.

Lemma ex_all :
  (forall c ts, T_prim c ts -> forall lit r res, gives (fun n => p_post n lit c r) res -> gives (fun n => p_un n lit (ts ++ r)) res) /\
  (forall c ts, T_un c ts -> forall lit r, stop lit r = true \/ (exists o r', r = GOp o :: r' /\ is_rel o = true) -> gives (fun n => p_un n lit (ts ++ r)) (c, r)) /\
  (forall c ts, T_ex c ts -> forall lit r, stop lit r = true -> gives (fun n => p_ex n lit (ts ++ r)) (c, r)) /\
  (forall l ts, T_args l ts -> forall r, gives (fun n => p_args n (ts ++ GOp ")" :: r)) (l, GOp ")" :: r)).
Proof.
  assert (RS : forall lit c r, stop lit r = true \/ (exists o r', r = GOp o :: r' /\ is_rel o = true) -> gives (fun n => p_post n lit c r) (c, r)).
  { intros lit c r [H|(o & r' & -> & Ho)]; [apply post_stop; exact H|].
    unfold is_rel in Ho. cbn in Ho. eapply gives_S; [intros n|apply gives_ret].
    destruct (String.eqb_spec o "!=") as [->|]; [reflexivity|]. destruct (String.eqb_spec o ">") as [->|]; [reflexivity|].
    destruct (String.eqb_spec o "<") as [->|]; [reflexivity|discriminate]. }
  assert (RT : forall lit r, stop lit r = true \/ (exists o r', r = GOp o :: r' /\ is_rel o = true) -> hd_not ["."] r = true).
  { intros lit r [H|(o & r' & -> & Ho)]; [eapply stop_ty; exact H|]. cbn. destruct (String.eqb_spec o ".") as [->|]; [discriminate|reflexivity]. }
  apply ex_mut.
  - intros x lit r res H. eapply gives_S; [intros n; reflexivity|exact H].
  - intros x lit r res H. eapply gives_S; [intros n; reflexivity|exact H].
  - intros x lit r res H. eapply gives_S; [intros n; reflexivity|exact H].
  - intros c ts _ IH lit r res H. eapply gives_S; [intros n; cbn [p_un app mem existsb orb String.eqb Ascii.eqb Bool.eqb]; rewrite <- app_assoc; cbn [app]; reflexivity|].
    eapply gives_bind; [apply IH; reflexivity|]. cbn [pop_ app String.eqb Ascii.eqb Bool.eqb pbind]. exact H.
  - intros c ts x _ IH lit r res H. rewrite <- app_assoc. apply IH. eapply gives_S; [intros n; cbn [p_post]; reflexivity|]. exact H.
  - intros c ts i us _ IH Hi IHi lit r res H. rewrite <- app_assoc. apply IH. cbn [app]. rewrite <- app_assoc.
    eapply gives_S; [intros n; cbn [p_post]|].
    { rewrite pop_no, pop_ok by reflexivity.
      rewrite begins_pop; [|eapply (proj1 (proj2 (proj2 ex_begins))); exact Hi|reflexivity]. reflexivity. }
    eapply gives_bind; [apply IHi; reflexivity|]. cbn [pop_ app String.eqb Ascii.eqb Bool.eqb pbind]. exact H.
  - intros c ts _ IH lit r res H. rewrite <- app_assoc. apply IH. eapply gives_S; [intros n; cbn [p_post]; reflexivity|]. exact H.
  - intros f ts l us _ IH _ IHl lit r res H. rewrite <- app_assoc. apply IH. cbn [app]. rewrite <- app_assoc.
    eapply gives_S; [intros n; cbn [p_post]; rewrite !pop_no, pop_ok by reflexivity; reflexivity|]. eapply gives_bind; [apply IHl|]. cbn [pop_ app String.eqb Ascii.eqb Bool.eqb pbind]. exact H.
  - intros c ts _ IH lit r H. apply IH. apply RS. exact H.
  - intros t ts Ht lit r H. eapply gives_S; [intros n; cbn [p_un]; reflexivity|].
    eapply gives_bind; [apply (ty_ok (XSlice t) (GOp "[" :: GOp "]" :: ts)); [constructor; exact Ht|eapply RT; exact H]|]. apply RS. exact H.
  - intros fs ts Ht lit r H. eapply gives_S; [intros n; cbn [p_un]; reflexivity|].
    eapply gives_bind; [apply (ty_ok (XStruct fs) (GKw "struct" :: GOp "{" :: ts ++ [GOp "}"])); [constructor; exact Ht|eapply RT; exact H]|]. apply RS. exact H.
  - intros o c ts Ho _ IH lit r H. eapply gives_S; [intros n; cbn [p_un app]|].
    { replace (mem o ["*"; "&"; "-"]) with true by (cbn in Ho; destruct Ho as [<-|[<-|[<-|[]]]]; reflexivity). reflexivity. }
    eapply gives_bind; [apply IH; exact H|]. apply gives_ret.
  - intros c ts _ IH lit r H. eapply gives_S; [intros n; cbn [p_ex]; reflexivity|].
    eapply gives_bind; [apply IH; left; exact H|]. cbn beta iota. destruct r as [|[] r]; try apply gives_ret. rewrite (stop_rel _ _ _ H). apply gives_ret.
  - intros o a ts b us Ho _ IHa _ IHb lit r H. rewrite <- app_assoc. cbn [app].
    assert (Hr : is_rel o = true) by (cbn in Ho; destruct Ho as [<-|[<-|[<-|[]]]]; reflexivity).
    eapply gives_S; [intros n; cbn [p_ex]; reflexivity|].
    eapply gives_bind; [apply IHa; right; eauto|]. cbn beta iota. rewrite Hr. eapply gives_bind; [apply IHb; left; exact H|]. apply gives_ret.
  - intros r. eapply gives_S; [intros n; reflexivity|apply gives_ret].
  - intros c ts Hc IH r. eapply gives_S; [intros n; cbn [p_args]|].
    { rewrite begins_pop; [|eapply (proj1 (proj2 (proj2 ex_begins))); exact Hc|reflexivity]. reflexivity. }
    eapply gives_bind; [apply IH; reflexivity|]. cbn [pop_ app String.eqb Ascii.eqb Bool.eqb pbind]. apply gives_ret.
  - intros c ts l us Hc IH Nl _ IHl r. rewrite <- app_assoc. cbn [app]. eapply gives_S; [intros n; cbn [p_args]|].
    { rewrite begins_pop; [|eapply (proj1 (proj2 (proj2 ex_begins))); exact Hc|reflexivity]. reflexivity. }
    eapply gives_bind; [apply IH; reflexivity|]. cbn [pop_ app String.eqb Ascii.eqb Bool.eqb pbind]. eapply gives_bind; [apply IHl|]. apply gives_ret.
Qed.
Definition prim_ok := proj1 ex_all.
Definition un_ok := proj1 (proj2 ex_all).
Definition ex_ok := proj1 (proj2 (proj2 ex_all)).
Definition ex_begin := proj1 (proj2 (proj2 ex_begins)).

(** ** Composite literals *)
Lemma pid_ok x r : pid (GIdent x :: r) = Some (x, r).
Proof. reflexivity. Qed.
Lemma comp_head t ts r res : lit_type t = true -> T_ty t ts -> hd_not ["."] r = true ->
  gives (fun n => p_post n true t r) res -> gives (fun n => p_un n true (ts ++ r)) res.
Proof.
  intros L Ht Hr H. inversion Ht; subst; cbn [lit_type] in L; try discriminate.
  - eapply gives_S; [intros k; reflexivity|exact H].
  - cbn [app]. eapply gives_S; [intros k; cbn [p_un]; reflexivity|]. eapply gives_S; [intros k; cbn [p_post]; rewrite pop_ok; reflexivity|]. exact H.
  - eapply gives_S; [intros k; cbn [p_un]; reflexivity|]. eapply gives_bind; [apply (ty_ok _ _ Ht); exact Hr|]. exact H.
  - eapply gives_S; [intros k; cbn [p_un]; reflexivity|]. eapply gives_bind; [apply (ty_ok _ _ Ht); exact Hr|]. exact H.
  - eapply gives_S; [intros k; cbn [p_un]; reflexivity|]. eapply gives_bind; [apply (ty_ok _ _ Ht); exact Hr|]. exact H.
Qed.
Scheme comp_m := Induction for T_comp Sort Prop with elems_m := Induction for T_elems Sort Prop.
Combined Scheme comp_mut from comp_m, elems_m.
Lemma un_ex c r lit ts : stop lit r = true -> gives (fun n => p_un n lit (ts ++ r)) (c, r) -> gives (fun n => p_ex n lit (ts ++ r)) (c, r).
Proof.
  intros H G. eapply gives_S; [intros n; cbn [p_ex]; reflexivity|]. eapply gives_bind; [exact G|]. cbn beta iota.
  destruct r as [|[] r]; try apply gives_ret. rewrite (stop_rel _ _ _ H). apply gives_ret.
Qed.
Definition key_of (ts : list gtok) : option string * list gtok :=
  match ts with GIdent x :: GOp o :: r => if String.eqb o ":" then (Some x, r) else (None, ts) | _ => (None, ts) end.
Lemma p_elems_S n ts : p_elems (S n) ts =
  match pop_ "}" ts with
  | Some _ => Some ([], ts)
  | None =>
      let '(k, r) := key_of ts in
      do (c, r) <- p_ex n true r ;
      match pop_ "," r with Some r => do (l, r) <- p_elems n r ; Some ((k, c) :: l, r) | None => Some ([(k, c)], r) end
  end.
Proof. reflexivity. Qed.
Lemma ty_lit_pop t ts r : lit_type t = true -> T_ty t ts -> pop_ "}" (ts ++ r) = None.
Proof. intros L H. destruct H; reflexivity. Qed.
Lemma ty_lit_key t ts us : lit_type t = true -> T_ty t ts -> key_of (ts ++ GOp "{" :: us) = (None, ts ++ GOp "{" :: us).
Proof. intros L H. destruct H; reflexivity. Qed.
Lemma comp_all :
  (forall c ts, T_comp c ts -> forall r, stop true r = true -> gives (fun n => p_un n true (ts ++ r)) (c, r)) /\
  (forall es ts, T_elems es ts -> forall r, gives (fun n => p_elems n (ts ++ GOp "}" :: r)) (es, GOp "}" :: r)).
Proof.
  apply comp_mut.
  - intros t ts es us L Ht _ IH r Hr. rewrite <- app_assoc. cbn [app]. rewrite <- app_assoc. apply comp_head with (t := t); [exact L|exact Ht|reflexivity|].
    eapply gives_S; [intros n; cbn [p_post]; rewrite !pop_no, pop_ok, L by reflexivity; cbn [andb app]; reflexivity|].
    eapply gives_bind; [apply IH|]. cbn [pop_ app String.eqb Ascii.eqb Bool.eqb pbind]. apply post_stop. exact Hr.
  - intros r. eapply gives_S; [intros n; reflexivity|apply gives_ret].
  - intros x r. eapply gives_S; [intros n; rewrite p_elems_S; reflexivity|]. eapply gives_bind; [apply (un_ex (XId x) _ _ [GIdent x]); [reflexivity|apply (un_ok (XId x) [GIdent x]); [repeat constructor|left; reflexivity]]|].
    cbn [pop_ app String.eqb Ascii.eqb Bool.eqb pbind]. apply gives_ret.
  - intros k c ts l us Hc Hl IH r. cbn [app]. rewrite <- app_assoc. cbn [app].
    eapply gives_S; [intros n; rewrite p_elems_S; cbn [pop_ key_of String.eqb Ascii.eqb Bool.eqb]; reflexivity|].
    eapply gives_bind; [apply (ex_ok _ _ Hc); reflexivity|]. cbn [pop_ app String.eqb Ascii.eqb Bool.eqb]. eapply gives_bind; [apply IH|]. apply gives_ret.
  - intros c ts l us Hc IHc Hl IH r. rewrite <- app_assoc. cbn [app].
    assert (K : pop_ "}" (ts ++ GOp "," :: us ++ GOp "}" :: r) = None /\ key_of (ts ++ GOp "," :: us ++ GOp "}" :: r) = (None, ts ++ GOp "," :: us ++ GOp "}" :: r)).
    { inversion Hc; subst. rewrite <- app_assoc. cbn [app]. rewrite (ty_lit_pop t ts0), (ty_lit_key t ts0) by assumption. split; reflexivity. }
    destruct K as [K1 K2]. eapply gives_S; [intros n; rewrite p_elems_S, K1, K2; reflexivity|].
    eapply gives_bind; [apply un_ex; [reflexivity|apply IHc; reflexivity]|]. cbn [pop_ app String.eqb Ascii.eqb Bool.eqb]. eapply gives_bind; [apply IH|]. apply gives_ret.
Qed.
Lemma rhs_ok c ts r : T_rhs c ts -> stop true r = true -> gives (fun n => p_ex n true (ts ++ r)) (c, r).
Proof.
  intros [c' ts' H|c' ts' H|c' ts' H] Hr.
  - apply ex_ok; assumption.
  - apply un_ex; [exact Hr|]. apply (proj1 comp_all); assumption.
  - apply un_ex; [exact Hr|]. eapply gives_S; [intros n; cbn [p_un app]; reflexivity|]. eapply gives_bind; [apply (proj1 comp_all); [exact H|exact Hr]|]. apply gives_ret.
Qed.
Lemma comp_begins c ts : T_comp c ts -> begins ts.
Proof. intros []. apply begins_app. destruct H0; cbn in H; try discriminate; eexists; eexists; split; reflexivity. Qed.
Lemma rhs_begins c ts : T_rhs c ts -> begins ts.
Proof. intros []; [eapply ex_begin; eassumption|eapply comp_begins; eassumption|eexists; eexists; split; reflexivity]. Qed.
Lemma rhss_ok l ts : T_rhss l ts -> forall r, stop true r = true -> pop_ "," r = None -> gives (fun n => p_exs n (ts ++ r)) (l, r).
Proof.
  induction 1 as [c ts H|c ts l us H Nl _ IH]; intros r Hr Hc.
  - eapply gives_S; [intros n; cbn [p_exs]; reflexivity|]. eapply gives_bind; [apply rhs_ok; [exact H|exact Hr]|]. cbn beta iota. rewrite Hc. apply gives_ret.
  - rewrite <- app_assoc. cbn [app]. eapply gives_S; [intros n; cbn [p_exs]; reflexivity|]. eapply gives_bind; [apply rhs_ok; [exact H|reflexivity]|]. cbn beta iota. rewrite pop_ok.
    eapply gives_bind; [apply IH; [exact Hr|exact Hc]|]. apply gives_ret.
Qed.
Lemma rhss_begins l ts : T_rhss l ts -> begins ts.
Proof. intros []; [|apply begins_app]; eapply rhs_begins; eassumption. Qed.

(** ** Statements *)
(** What follows a statement. *)
Definition ends_st (r : list gtok) : bool := match r with GSemi :: _ => true | GOp o :: _ => String.eqb o "}" | _ => false end.
Lemma ends_st_stop lit r : ends_st r = true -> stop lit r = true.
Proof. destruct r as [|[] r]; try discriminate; try reflexivity. cbn [ends_st]. intros H. apply String.eqb_eq in H. subst. destruct lit; reflexivity. Qed.
Lemma ends_st_cases r : ends_st r = true -> (exists r', r = GSemi :: r') \/ exists r', r = GOp "}" :: r'.
Proof. destruct r as [|[] r]; try discriminate; cbn [ends_st]; intros H; [right|left; eauto]. apply String.eqb_eq in H. subst. eauto. Qed.
Definition p_simple (n : nat) (ts : list gtok) : option (cs * list gtok) :=
  do (c, r) <- p_ex n true ts ;
  match r with
  | GOp o :: r1 =>
      if String.eqb o ":=" then match c with XId x => do (e, r2) <- p_ex n true r1 ; Some (YDef x e, r2) | _ => None end
      else if String.eqb o "=" then do (e, r2) <- p_ex n true r1 ; Some (YSet c e, r2)
      else Some (YExpr c, r)
  | _ => Some (YExpr c, r)
  end.
Lemma p_stmt_simple n ts : begins ts -> p_stmt (S n) ts = p_simple n ts.
Proof.
  intros (t & r & -> & H). destruct t; try discriminate; try reflexivity; cbn [starts] in H.
  - apply String.eqb_eq in H. subst. reflexivity.
  - unfold p_simple. cbn [p_stmt]. destruct (String.eqb_spec s "{") as [->|]; [discriminate|reflexivity].
Qed.
Lemma stmt_head s ts : T_stmt s ts -> forall r, ends_list (ts ++ r) = false.
Proof.
  assert (B : forall ts r, begins ts -> ends_list (ts ++ r) = false).
  { intros us r (t & u & -> & H). destruct t; try reflexivity; cbn [app ends_list starts] in *.
    - apply String.eqb_eq in H. subst. reflexivity.
    - destruct (String.eqb_spec s0 "}") as [->|]; [discriminate|reflexivity]. }
  intros [] r; try reflexivity.
  - apply B. eapply ex_begin. eassumption.
  - rewrite <- app_assoc. apply B. eapply ex_begin. eassumption.
Qed.
Scheme stmt_m := Induction for T_stmt Sort Prop with stmts_m := Induction for T_stmts Sort Prop
  with body_m := Induction for T_body Sort Prop with cls_m := Induction for T_cls Sort Prop.
Combined Scheme stmt_mut from stmt_m, stmts_m, body_m, cls_m.
Lemma pkw_ok w r : pkw w (GKw w :: r) = Some r.
Proof. cbn. rewrite String.eqb_refl. reflexivity. Qed.
Lemma p_stmts_S n ts : p_stmts (S n) ts =
  if ends_list ts then Some ([], ts)
  else do (s, r) <- p_stmt n ts ;
       match psemi r with Some r => do (ss, r) <- p_stmts n r ; Some (s :: ss, r) | None => Some ([s], r) end.
Proof. reflexivity. Qed.
Lemma stmt_all :
  (forall s ts, T_stmt s ts -> forall r, ends_st r = true -> gives (fun n => p_stmt n (ts ++ r)) (s, r)) /\
  (forall ss ts, T_stmts ss ts -> forall r l r', gives (fun n => p_stmts n r) (l, r') -> gives (fun n => p_stmts n (ts ++ r)) (ss ++ l, r')) /\
  (forall ss ts, T_body ss ts -> forall r, gives (fun n => p_stmts n (ts ++ GOp "}" :: r)) (ss, GOp "}" :: r)) /\
  (forall l ts, T_cls l ts -> forall r, gives (fun n => p_cls n (ts ++ GOp "}" :: r)) (l, GOp "}" :: r)).
Proof.
  assert (E0 : forall r, ends_list r = true -> gives (fun n => p_stmts n r) ([], r)).
  { intros r Hr. eapply gives_S; [intros n; rewrite p_stmts_S, Hr; reflexivity|apply gives_ret]. }
  apply stmt_mut.
  - intros c ts Hc r Hr. eapply gives_S; [intros n; apply p_stmt_simple; apply begins_app; eapply ex_begin; exact Hc|].
    eapply gives_bind; [apply (ex_ok _ _ Hc); apply ends_st_stop; exact Hr|]. destruct (ends_st_cases _ Hr) as [[r' ->]|[r' ->]]; apply gives_ret.
  - intros x t ts Ht r Hr. eapply gives_S; [intros n; cbn [p_stmt app String.eqb Ascii.eqb Bool.eqb pid pbind]; reflexivity|].
    eapply gives_bind; [apply (ty_ok _ _ Ht); eapply (stop_ty true), ends_st_stop, Hr|]. apply gives_ret.
  - intros x c ts Hc r Hr. eapply gives_S; [intros n; apply p_stmt_simple; eexists; eexists; split; reflexivity|].
    eapply gives_bind; [apply (ex_ok (XId x) [GIdent x]); [repeat constructor|reflexivity]|]. cbn [String.eqb Ascii.eqb Bool.eqb]. eapply gives_bind; [apply rhs_ok; [exact Hc|apply ends_st_stop; exact Hr]|]. apply gives_ret.
  - intros a ts b us Ha Hb r Hr. rewrite <- app_assoc. cbn [app]. eapply gives_S; [intros n; apply p_stmt_simple; apply begins_app; eapply ex_begin; exact Ha|].
    eapply gives_bind; [apply (ex_ok _ _ Ha); reflexivity|]. cbn [String.eqb Ascii.eqb Bool.eqb]. eapply gives_bind; [apply rhs_ok; [exact Hb|apply ends_st_stop; exact Hr]|]. apply gives_ret.
  - intros ss ts _ IH r Hr. cbn [app]. rewrite <- app_assoc. eapply gives_S; [intros n; cbn [p_stmt app String.eqb Ascii.eqb Bool.eqb]; reflexivity|].
    eapply gives_bind; [apply IH|]. cbn [pop_ app String.eqb Ascii.eqb Bool.eqb pbind]. apply gives_ret.
  - intros c ts a us Hc _ IH r Hr. cbn [app]. rewrite <- app_assoc. cbn [app]. rewrite <- app_assoc. eapply gives_S; [intros n; cbn [p_stmt app String.eqb Ascii.eqb Bool.eqb]; reflexivity|].
    eapply gives_bind; [apply (ex_ok _ _ Hc); reflexivity|]. cbn [pop_ app String.eqb Ascii.eqb Bool.eqb pbind]. eapply gives_bind; [apply IH|]. cbn [pop_ app String.eqb Ascii.eqb Bool.eqb pbind].
    destruct (ends_st_cases _ Hr) as [[r' ->]|[r' ->]]; apply gives_ret.
  - intros c ts a us b vs Hc _ IH _ IHb r Hr. cbn [app]. repeat (rewrite <- app_assoc; cbn [app]). eapply gives_S; [intros n; cbn [p_stmt app String.eqb Ascii.eqb Bool.eqb]; reflexivity|].
    eapply gives_bind; [apply (ex_ok _ _ Hc); reflexivity|]. cbn [pop_ app String.eqb Ascii.eqb Bool.eqb pbind]. eapply gives_bind; [apply IH|]. cbn [pop_ app String.eqb Ascii.eqb Bool.eqb pbind].
    rewrite pkw_ok. cbn [pop_ app String.eqb Ascii.eqb Bool.eqb pbind]. eapply gives_bind; [apply IHb|]. cbn [pop_ app String.eqb Ascii.eqb Bool.eqb pbind]. apply gives_ret.
  - intros x c0 t0 c t1 y ss us H0 H1 _ IH r Hr. cbn [app]. repeat (rewrite <- app_assoc; cbn [app]). eapply gives_S; [intros n; cbn [p_stmt app String.eqb Ascii.eqb Bool.eqb pid pbind pop_]; reflexivity|].
    eapply gives_bind; [apply (ex_ok _ _ H0); reflexivity|]. cbn [psemi pbind]. eapply gives_bind; [apply (ex_ok _ _ H1); reflexivity|]. cbn [psemi pbind pid pop_ app String.eqb Ascii.eqb Bool.eqb].
    eapply gives_bind; [apply IH|]. cbn [pop_ app String.eqb Ascii.eqb Bool.eqb pbind]. apply gives_ret.
  - intros c ts l us Hc _ IH r Hr. cbn [app]. repeat (rewrite <- app_assoc; cbn [app]). eapply gives_S; [intros n; cbn [p_stmt app String.eqb Ascii.eqb Bool.eqb]; reflexivity|].
    eapply gives_bind; [apply (ex_ok _ _ Hc); reflexivity|]. cbn [pop_ app String.eqb Ascii.eqb Bool.eqb pbind]. eapply gives_bind; [apply IH|]. cbn [pop_ app String.eqb Ascii.eqb Bool.eqb pbind]. apply gives_ret.
  - intros r Hr. eapply gives_S; [intros n; reflexivity|apply gives_ret].
  - intros r Hr. eapply gives_S; [intros n|apply gives_ret]. destruct (ends_st_cases _ Hr) as [[r' ->]|[r' ->]]; reflexivity.
  - intros l ts Hl r Hr. eapply gives_S.
    { intros n. assert (E : p_stmt (S n) (GKw "return" :: ts ++ r) = do (l, r) <- p_exs n (ts ++ r) ; Some (YRet l, r)).
      { destruct (rhss_begins _ _ Hl) as (t & u & -> & Ht). destruct t; try discriminate; try reflexivity. cbn [starts] in Ht. cbn [p_stmt app String.eqb Ascii.eqb Bool.eqb].
        destruct (String.eqb_spec s "}") as [->|]; [discriminate|reflexivity]. }
      exact E. }
    eapply gives_bind; [apply (rhss_ok _ _ Hl)|].
    { apply ends_st_stop; exact Hr. } { destruct (ends_st_cases _ Hr) as [[r' ->]|[r' ->]]; reflexivity. } apply gives_ret.
  - intros r l r' H. exact H.
  - intros s ts ss us Hs IHs _ IH r l r' H. rewrite <- app_assoc. cbn [app]. eapply gives_S; [intros n; rewrite p_stmts_S, (stmt_head _ _ Hs); reflexivity|].
    eapply gives_bind; [apply IHs; reflexivity|]. cbn [psemi]. eapply gives_bind; [apply IH; exact H|]. apply gives_ret.
  - intros ss ts _ IH r. replace (ss, GOp "}" :: r) with (ss ++ [], GOp "}" :: r) by (rewrite app_nil_r; reflexivity). apply IH. apply E0. reflexivity.
  - intros ss us s ts _ IH Hs IHs r. rewrite <- app_assoc. apply IH. eapply gives_S; [intros n; rewrite p_stmts_S, (stmt_head _ _ Hs); reflexivity|].
    eapply gives_bind; [apply IHs; reflexivity|]. cbn [psemi]. apply gives_ret.
  - intros r. eapply gives_S; [intros n; reflexivity|apply gives_ret].
  - intros c ts ss us l vs Hc _ IHs Hl IHl r. cbn [app]. repeat (rewrite <- app_assoc; cbn [app]). eapply gives_S; [intros n; cbn [p_cls]; rewrite pkw_ok; reflexivity|].
    eapply gives_bind; [apply (ex_ok _ _ Hc); reflexivity|]. cbn [pop_ app String.eqb Ascii.eqb Bool.eqb pbind].
    eapply gives_bind; [apply IHs; apply E0; destruct Hl; reflexivity|]. eapply gives_bind; [apply IHl|]. rewrite app_nil_r. apply gives_ret.
  - intros ss us l vs _ IHs Hl IHl r. cbn [app]. repeat (rewrite <- app_assoc; cbn [app]). eapply gives_S; [intros n; cbn [p_cls pkw pop_ String.eqb Ascii.eqb Bool.eqb pbind]; reflexivity|].
    eapply gives_bind; [apply IHs; apply E0; destruct Hl; reflexivity|]. eapply gives_bind; [apply IHl|]. rewrite app_nil_r. apply gives_ret.
Qed.
Definition body_ok := proj1 (proj2 (proj2 stmt_all)).

(** ** Declarations and files *)
Lemma ty_pop o t ts r : T_ty t ts -> mem o ["*"; "["] = false -> pop_ o (ts ++ r) = None.
Proof.
  intros [] Ho; try reflexivity; cbn [app pop_].
  - destruct (String.eqb_spec "*" o) as [<-|]; [discriminate|reflexivity].
  - destruct (String.eqb_spec "[" o) as [<-|]; [discriminate|reflexivity].
  - destruct (String.eqb_spec "[" o) as [<-|]; [discriminate|reflexivity].
Qed.
Lemma ty_psemi t ts r : T_ty t ts -> psemi (ts ++ r) = None.
Proof. intros []; reflexivity. Qed.
Lemma ty_iface t ts r : T_ty t ts -> pkw "interface" (ts ++ r) = None.
Proof. intros []; reflexivity. Qed.
Lemma meths_ok ms ts : T_meths ms ts -> forall r, gives (fun n => p_meths n (ts ++ GOp "}" :: r)) (ms, GOp "}" :: r).
Proof.
  induction 1 as [|x a ts r us l vs Ha Hr _ IH]; intros rest.
  - eapply gives_S; [intros n; reflexivity|apply gives_ret].
  - cbn [app]. repeat (rewrite <- app_assoc; cbn [app]).
    eapply gives_S; [intros n; cbn [p_meths pid pbind]; rewrite pop_ok; cbn [pbind pop_]; reflexivity|].
    apply gives_bind with (a := (a, us ++ GSemi :: vs ++ GOp "}" :: rest)).
    { destruct Ha as [|t ts Ht]; [exists 0%nat; reflexivity|]. eapply gives_eq; [intros n; rewrite (ty_pop ")" t) by (exact Ht || reflexivity); reflexivity|].
      eapply gives_bind; [apply (ty_ok _ _ Ht); reflexivity|]. exists 0%nat. reflexivity. }
    cbn beta iota. apply gives_bind with (a := (r, GSemi :: vs ++ GOp "}" :: rest)).
    { destruct Hr as [|t us Ht]; [exists 0%nat; reflexivity|]. eapply gives_eq; [intros n; rewrite (ty_psemi t) by exact Ht; reflexivity|].
      eapply gives_bind; [apply (ty_ok _ _ Ht); reflexivity|]. exists 0%nat. reflexivity. }
    cbn [psemi pbind]. eapply gives_bind; [apply IH|]. apply gives_ret.
Qed.
Lemma params_ok l ts : T_params l ts -> forall r, gives (fun n => p_params n (ts ++ GOp ")" :: r)) (l, GOp ")" :: r).
Proof.
  induction 1 as [x t ts Ht|x t ts l us Ht Nl _ IH]; intros r.
  - eapply gives_S; [intros n; cbn [p_params pid pbind app]; reflexivity|]. eapply gives_bind; [apply (ty_ok _ _ Ht); reflexivity|]. apply gives_ret.
  - cbn [app]. rewrite <- app_assoc. cbn [app]. eapply gives_S; [intros n; cbn [p_params pid pbind app]; reflexivity|]. eapply gives_bind; [apply (ty_ok _ _ Ht); reflexivity|]. cbn beta iota. rewrite pop_ok.
    eapply gives_bind; [apply IH|]. apply gives_ret.
Qed.
Lemma top_ok d ts : T_top d ts -> forall r, gives (fun n => p_top n (ts ++ GSemi :: r)) (d, GSemi :: r).
Proof.
  intros [x|s|x t ts0 Ht|x ms ts0 Hm|x t ts0 v us Ht Hv|rv rs x ps ts0 r0 us b vs Hrv Hp Hr Hb] r.
  - apply gives_ret.
  - apply gives_ret.
  - eapply gives_eq; [intros n; cbn [p_top app String.eqb Ascii.eqb Bool.eqb pid pbind]; rewrite (ty_iface t) by exact Ht; reflexivity|].
    eapply gives_bind; [apply (ty_ok _ _ Ht); reflexivity|]. apply gives_ret.
  - cbn [app]. rewrite <- app_assoc. eapply gives_eq; [intros n; cbn [p_top app String.eqb Ascii.eqb Bool.eqb pid pbind]; rewrite pkw_ok; cbn [pop_ String.eqb Ascii.eqb Bool.eqb pbind]; reflexivity|].
    eapply gives_bind; [apply (meths_ok _ _ Hm)|]. apply gives_ret.
  - cbn [app]. rewrite <- app_assoc. cbn [app]. eapply gives_eq; [intros n; cbn [p_top app String.eqb Ascii.eqb Bool.eqb pid pbind]; reflexivity|].
    apply gives_bind with (a := (t, GOp "=" :: us :: GSemi :: r)).
    { destruct Ht as [|t ts1 Ht]; [exists 0%nat; reflexivity|]. eapply gives_eq; [intros n; rewrite (ty_pop "=" t) by (exact Ht || reflexivity); reflexivity|].
      eapply gives_bind; [apply (ty_ok _ _ Ht); reflexivity|]. apply gives_ret. }
    cbn [pop_ app String.eqb Ascii.eqb Bool.eqb pbind]. rewrite (psz_ok _ _ _ Hv). apply gives_ret.
  - cbn [app]. repeat (rewrite <- app_assoc; cbn [app]). eapply gives_eq; [intros n; cbn [p_top app String.eqb Ascii.eqb Bool.eqb]; reflexivity|].
    apply gives_bind with (a := (rv, GIdent x :: GOp "(" :: ts0 ++ GOp ")" :: us ++ GOp "{" :: vs ++ GOp "}" :: GSemi :: r)).
    { destruct Hrv as [|y t ts1 Ht]; [apply gives_ret|]. cbn [app]. rewrite <- app_assoc. eapply gives_eq; [intros n; rewrite pop_ok; cbn [pid pbind]; reflexivity|].
      eapply gives_bind; [apply (ty_ok _ _ Ht); reflexivity|]. apply gives_ret. }
    cbn [pid pbind pop_ String.eqb Ascii.eqb Bool.eqb]. eapply gives_bind; [apply (params_ok _ _ Hp)|]. cbn [pid pbind pop_ String.eqb Ascii.eqb Bool.eqb].
    apply gives_bind with (a := (r0, GOp "{" :: vs ++ GOp "}" :: GSemi :: r)).
    { destruct Hr as [|t us1 Ht|l us1 Hl].
      - exists 0%nat. reflexivity.
      - eapply gives_eq; [intros n; rewrite (ty_pop "{" t), (ty_pop "(" t) by (exact Ht || reflexivity); reflexivity|].
        eapply gives_bind; [apply (ty_ok _ _ Ht); reflexivity|]. apply gives_ret.
      - cbn [app]. rewrite <- app_assoc. eapply gives_eq; [intros n; rewrite pop_no by reflexivity; rewrite pop_ok; reflexivity|].
        eapply gives_bind; [apply (params_ok _ _ Hl)|]. apply gives_ret. }
    cbn [pid pbind pop_ String.eqb Ascii.eqb Bool.eqb]. eapply gives_bind; [apply (body_ok _ _ Hb)|]. apply gives_ret.
Qed.
Lemma top_head d ts : T_top d ts -> exists t r, ts = t :: r.
Proof. intros []; eauto. Qed.
Lemma file_ok l ts : T_file l ts -> gives (fun n => p_file n ts) l.
Proof.
  induction 1 as [|d ts l us Hd _ IH].
  - eapply gives_S; [intros n; reflexivity|apply gives_ret].
  - destruct (top_head _ _ Hd) as (t & r & E). eapply gives_S.
    { intros n. assert (X : p_file (S n) (ts ++ GSemi :: us) = do (d, r) <- p_top n (ts ++ GSemi :: us) ; do r <- psemi r ; do l <- p_file n r ; Some (d :: l)) by (subst; reflexivity). exact X. }
    eapply gives_bind; [apply (top_ok _ _ Hd)|]. cbn [psemi pbind]. eapply gives_bind; [exact IH|]. apply gives_ret.
Qed.
