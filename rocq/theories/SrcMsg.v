(** The form of Rpc_msg values; an environment that meets the assumptions of SrcRpc.v. *)
From Verif Require Import GoLex SrcAst SrcProg.
From Verif Require Import Bytes XdrLib Types Interp Heap HeapP HeapX RpcTypes Io Client Server SrcSem SrcLib SrcLibB SrcLibC SrcRpc.
Open Scope string_scope.
Open Scope Z_scope.
Open Scope list_scope.

(** The explicit form of a message. *)
Lemma msg_inv g : gtype g = gtype zmsg ->
  exists xid mt rv pg vs pc f1 b1 f2 b2 st f3 b3 ast bs lo hi rst lo2 hi2 au,
  g = gmsg xid mt (gcbody rv pg vs pc (gauth f1 b1) (gauth f2 b2))
        (grbody st (gareply (gauth f3 b3) ast bs (gmismatch lo hi)) (grreply rst (gmismatch lo2 hi2) au)).
Proof.
  intros H. cbn in H.
  repeat match goal with
  | H : gtype ?g = _ |- _ => destruct g; cbn in H; try discriminate H; injection H as H; repeat match goal with K : _ = _ :> string |- _ => try subst end
  | H : map _ ?l = _ :: _ |- _ => destruct l as [|[? ?] l]; cbn [map fst snd] in H; [discriminate H|]; injection H; clear H; intros; repeat match goal with K : _ = _ :> string |- _ => try subst end
  | H : map _ ?l = [] |- _ => destruct l; [clear H|discriminate H]
  end.
  repeat match goal with
  | H : gtype ?g = _ |- _ => destruct g; cbn in H; try discriminate H; clear H
  end.
  repeat eexists.
Qed.

