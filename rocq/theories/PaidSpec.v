(** * PaidSpec: what the showdown of the code pays, in every case (engine.py:669-720)

    [ShowSpec] says what a showdown should pay.  The code differs in who shares a side pot:
    it takes a player out of the sharing only when that player opens a side pot, and players who
    open none keep sharing with the players they are tied with. *)
From Verif Require Import PyBase ShowSpec.

(** player [i], in the hand, opens no side pot: somebody with a better hand has put in as much; or somebody with an equal
    hand and the same amount sits at a lower seat; or [i] has put in nothing *)
Definition left_over (d : showdown) (i : nat) : Prop :=
  sd_put d i <= 0 \/
  exists j, (j < sd_players d)%nat /\ sd_in d j = true /\
    (sd_rank d j < sd_rank d i /\ sd_put d i <= sd_put d j \/ sd_rank d j = sd_rank d i /\ sd_put d i = sd_put d j /\ (j < i)%nat).
(** the best of those who are in the hand and have put in more than [a] *)
Definition best_above (d : showdown) (a : Z) (i : nat) : Prop :=
  contends d a i /\ forall j, contends d a j -> sd_rank d i <= sd_rank d j.

Inductive paid_pots (d : showdown) : Z -> list (list nat * Z) -> Prop :=
| paid_none a : (forall i, (i < sd_players d)%nat -> sd_put d i <= a) -> paid_pots d a []
(** a side pot for the best hands, shared with the tied players who have put in less and have opened no side pot *)
| paid_next a w b r :
    NoDup w -> (exists i, best_above d a i /\ sd_put d i = b) -> (forall i, best_above d a i -> b <= sd_put d i) ->
    (forall i, In i w <-> best_above d a i \/
       ((i < sd_players d)%nat /\ sd_in d i = true /\ sd_put d i <= a /\ left_over d i /\ exists k, best_above d a k /\ sd_rank d i = sd_rank d k)) ->
    paid_pots d b r -> paid_pots d a ((w, chips_between d a b) :: r)
(** chips of folded players that nobody in the hand has matched: shared by all folded players and all who have opened a side pot *)
| paid_folded a w b r :
    (forall i, ~ contends d a i) ->
    NoDup w -> (exists i, (i < sd_players d)%nat /\ a < sd_put d i /\ sd_put d i = b) -> (forall i, (i < sd_players d)%nat -> a < sd_put d i -> b <= sd_put d i) ->
    (forall i, In i w <-> (i < sd_players d)%nat /\ (sd_in d i = false \/ ~ left_over d i)) ->
    paid_pots d b r -> paid_pots d a ((w, chips_between d a b) :: r).
