(** * DeckSpec: histories of a deck *)
From Verif Require Import PyBase CardModel CardSpec.

(** the calls a user can make on a deck; [DShuffle] carries the random outcome *)
Inductive deck_op : Type :=
| DDraw (n : Z)
| DShuffle (rnd : list nat)
| DTrick (cards : list card)
| DUntrick.

(** a deck together with the cards drawn from it since its last shuffle *)
Definition deck_apply (p : deck * list card) (o : deck_op) : deck * list card :=
  let '(d, drawn) := p in
  match o with
  | DDraw n => let '(cs, d') := deck_draw n d in (d', drawn ++ cs)
  | DShuffle rnd => (deck_shuffle rnd d, [])
  | DTrick cs => match deck_trick cs d with Ok d' => (d', drawn) | Err _ => (d, drawn) end
  | DUntrick => (deck_untrick d, drawn)
  end.
Definition deck_run (d : deck) (ops : list deck_op) : deck * list card :=
  fold_left deck_apply ops (d, []).

(** histories that never trick the deck with a repeated card *)
Definition distinct_tricks (ops : list deck_op) : Prop :=
  Forall (fun o => match o with DTrick cs => NoDup (map c_int cs) | _ => True end) ops.

(** histories made of draws and shuffles only *)
Definition only_draw_shuffle (ops : list deck_op) : Prop :=
  Forall (fun o => match o with DDraw _ | DShuffle _ => True | _ => False end) ops.
