(** Vocabulary for statements about RPC servers. *)
From Verif Require Import Bytes XdrLib Types Interp Spec Runs RpcTypes RpcSpec RpcWire RpcDec Io Client CallSpec Server.
Open Scope string_scope.
Open Scope Z_scope.
Open Scope list_scope.

Section Spec.
Context {W : Type}.

(** [srv] results from this history of registrations, made one by one or in lists. *)
Inductive reach : server W -> list (registration W) -> Prop :=
| R_make : reach MakeServer []
| R_one s l r : reach s l ->
    reach (Register s (rg_prog r) (rg_vers r) (rg_proc r) (rg_handler r)) (l ++ [r])
| R_many s l rs : reach s l -> reach (RegisterMany s rs) (l ++ rs).

Definition for_proc (r : registration W) (p v c : Z) : Prop :=
  rg_prog r = p /\ rg_vers r = v /\ rg_proc r = c.

(** The last registration for exactly this triple has handler [h]. *)
Definition last_for (l : list (registration W)) (p v c : Z) (h : option (handler W)) : Prop :=
  exists pre post, l = pre ++ mkReg p v c h :: post /\
    forall r, In r post -> ~ for_proc r p v c.

Definition known_prog (l : list (registration W)) (p : Z) : Prop := exists r, In r l /\ rg_prog r = p.
Definition known_vers (l : list (registration W)) (p v : Z) : Prop :=
  exists r, In r l /\ rg_prog r = p /\ rg_vers r = v.
Definition known_proc (l : list (registration W)) (p v c : Z) : Prop := exists r, In r l /\ for_proc r p v c.

(** The handler, called once with reader [s] in world [w], returns [r]. *)
Definition HRuns (h : handler W) (s : xst) (w : W) (r : W * option xdrable * option xerr) : Prop :=
  exists n, h n s w = Ret r.

(** The same results on every argument reader and in every state. *)
Definition agrees (h h' : handler W) : Prop := forall s w r, HRuns h s w r <-> HRuns h' s w r.

(** More fuel does not change a handler's result; its results are well-typed. *)
Definition res_ok (o : option xdrable) : Prop := match o with Some r => xv_ok r | None => True end.
Definition handler_ok (h : handler W) : Prop :=
  (forall n m s w r, (n <= m)%nat -> h n s w = Ret r -> h m s w = Ret r) /\
  (forall s w w' o e, HRuns h s w (w', o, e) -> res_ok o).
Definition regs_ok (l : list (registration W)) : Prop :=
  forall r h, In r l -> rg_handler r = Some h -> handler_ok h.

Definition Handles {S} (C : conn S) (srv : server W) (s : S) (w : W) (buf : list byte)
    (s' : S) (w' : W) (e : option serr) : Prop :=
  exists n, handleReqErr n C srv s w buf = Ret (s', w', e).

(** On every connection: handling [buf] takes the world from [w] to [w'] and makes the
    single Write of the record [mark ++ rep]. *)
Definition sends (srv : server W) (w : W) (buf : list byte) (w' : W) (rep : list byte) : Prop :=
  forall (S : Type) (C : conn S) s,
    Handles C srv s w buf (fst (c_write C s (mark (zlen rep) ++ rep))) w'
      (option_map SIo (snd (c_write C s (mark (zlen rep) ++ rep)))).

(** On every connection: handling [buf] writes nothing and returns an error. *)
Definition silent (srv : server W) (w : W) (buf : list byte) (w' : W) : Prop :=
  forall (S : Type) (C : conn S) s, exists e, Handles C srv s w buf s w' (Some e).

(** Encoding of an optional result. *)
Definition res_wire (o : option xdrable) (b : list byte) : Prop :=
  match o with Some r => Wire ENC (xv_env r) (xv_ty r) (xv_val r) b | None => b = [] end.
Definition res_bounded (o : option xdrable) : Prop :=
  match o with Some r => bounded ENC (xv_env r) (xv_ty r) (xv_val r) | None => True end.

(** ** User procedures behind generated stubs (arguments and results absent for void) *)
(** Go's typing: the result has the declared type; both types are well-formed. *)
Definition user_ok (E : env) (targ tres : option cty) (user : option val -> W -> outcome (W * option val)) : Prop :=
  (forall t, targ = Some t -> exists D, good D E t) /\
  (forall t, tres = Some t -> exists D, good D E t) /\
  (forall x w w' y, user x w = Ret (w', y) ->
     match tres with Some t => exists v, y = Some v /\ has_ty E t v | None => y = None end).

(** What the stub hands back for result [y]. *)
Definition stub_res (E : env) (tres : option cty) (y : option val) : xdrable :=
  match tres, y with Some t, Some v => mkXv E t v | _, _ => xv_void end.

(** The argument bytes as the procedure sees them: [None] for a void parameter; bytes after
    the encoding are not looked at. *)
Definition arg_decodes (E : env) (targ : option cty) (args : list byte) (x : option val) : Prop :=
  match targ with
  | None => x = None
  | Some t => exists z rest v, fresh E t z /\ DecodeRest E t args z rest v /\ x = Some v
  end.

End Spec.
