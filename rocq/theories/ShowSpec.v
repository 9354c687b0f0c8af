(** * ShowSpec: what a showdown should pay *)
From Verif Require Import PyBase.

(** the players, the cards they show (a smaller rank is a better hand) and the chips they put in *)
Record showdown : Type := mkShow {
  sd_players : nat;
  sd_in : nat -> bool;
  sd_rank : nat -> Z;
  sd_put : nat -> Z
}.

(** the chips above level [a] and up to level [b], of all players, folded or not *)
Definition chips_between (d : showdown) (a b : Z) : Z :=
  sumZ (map (fun i => Z.min (sd_put d i) b - Z.min (sd_put d i) a) (seq 0 (sd_players d))).

(** player [i] is in the hand and has put in more than [a] *)
Definition contends (d : showdown) (a : Z) (i : nat) : Prop :=
  (i < sd_players d)%nat /\ sd_in d i = true /\ a < sd_put d i.
(** [w] are the players who win the next chips above level [a]: the best hands of those who
    have put in more than [a] *)
Definition winners (d : showdown) (a : Z) (w : list nat) : Prop :=
  NoDup w /\ forall i, In i w <-> contends d a i /\ forall j, contends d a j -> sd_rank d i <= sd_rank d j.

(** the side pots above level [a]: their winners and chips.  A side pot goes up to the level at
    which the first of its winners has no more chips in. *)
Inductive side_pots (d : showdown) : Z -> list (list nat * Z) -> Prop :=
| side_pots_none a : (forall i, ~ contends d a i) -> side_pots d a []
| side_pots_next a w b r :
    winners d a w -> (exists i, In i w /\ sd_put d i = b) -> (forall i, In i w -> b <= sd_put d i) ->
    side_pots d b r -> side_pots d a ((w, chips_between d a b) :: r).

(** equal shares of every side pot, and what cannot be divided *)
Definition share (pots : list (list nat * Z)) (i : nat) : Z :=
  sumZ (map (fun p => if existsb (Nat.eqb i) (fst p) then snd p / Z.of_nat (List.length (fst p)) else 0) pots).
Definition odd_chips (pots : list (list nat * Z)) : Z :=
  sumZ (map (fun p => snd p mod Z.of_nat (List.length (fst p))) pots).

(** ** When the code pays as it should *)
(** nobody who folded has put in more than everybody still in the hand *)
Definition covered_folds (d : showdown) : Prop :=
  forall i, (i < sd_players d)%nat -> sd_in d i = false ->
    exists j, (j < sd_players d)%nat /\ sd_in d j = true /\ sd_put d i <= sd_put d j.
(** a player tied with somebody who has put in more: has put in something, more than
    everybody with a better hand, and not the same as anybody else with an equal hand *)
Definition regular_ties (d : showdown) : Prop :=
  forall j k, (j < sd_players d)%nat -> (k < sd_players d)%nat -> sd_in d j = true -> sd_in d k = true ->
    sd_rank d j = sd_rank d k -> sd_put d j < sd_put d k ->
    0 < sd_put d j /\
    forall i, (i < sd_players d)%nat -> sd_in d i = true -> i <> j ->
      (sd_rank d i < sd_rank d j -> sd_put d i < sd_put d j) /\
      (sd_rank d i = sd_rank d j -> sd_put d i <> sd_put d j).
(** in particular: no ties; or all tied players have put in the same *)
Definition even_ties (d : showdown) : Prop :=
  forall j k, (j < sd_players d)%nat -> (k < sd_players d)%nat -> sd_in d j = true -> sd_in d k = true ->
    sd_rank d j = sd_rank d k -> sd_put d j = sd_put d k.
Lemma even_ties_regular d : even_ties d -> regular_ties d.
Proof. intros H j k Hj Hk Ij Ik E L. specialize (H j k Hj Hk Ij Ik E). exfalso. rewrite H in L. exact (Z.lt_irrefl _ L). Qed.
