(** * NumpyPaidSpec: what a showdown of the dealer on arrays pays, in all cases *)
From Verif Require Import PyBase ShowSpec.

(** The pots above level [a], for any ties and folds.  As long as a player in the hand has put in more than [a] the next pot is the
    one of [ShowSpec]: its winners are the best hands of those who have put in more than [a], and it goes up to the level at which
    the first of them has no more chips in.  Above that only folded players have chips in: these go, level by level, to all
    players in equal shares, in the hand or not. *)
Inductive array_pots (d : showdown) : Z -> list (list nat * Z) -> Prop :=
| array_none a : (forall i, (i < sd_players d)%nat -> sd_put d i <= a) -> array_pots d a []
| array_next a w b r :
    winners d a w -> (exists i, In i w /\ sd_put d i = b) -> (forall i, In i w -> b <= sd_put d i) ->
    array_pots d b r -> array_pots d a ((w, chips_between d a b) :: r)
| array_folded a w b r :
    (forall i, ~ contends d a i) ->
    NoDup w -> (forall i, In i w <-> (i < sd_players d)%nat) ->
    (exists i, (i < sd_players d)%nat /\ a < sd_put d i /\ sd_put d i = b) ->
    (forall i, (i < sd_players d)%nat -> a < sd_put d i -> b <= sd_put d i) ->
    array_pots d b r -> array_pots d a ((w, chips_between d a b) :: r).
