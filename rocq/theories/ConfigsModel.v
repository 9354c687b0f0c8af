(** * ConfigsModel: clubs/configs.py, the shipped configurations *)
From Verif Require Import PyBase EngineModel.

(** configs.py:30-46 *)
Definition LEDUC_TWO_PLAYER : raw_config :=
  mkRaw 2 2 (Scalar 0) (Scalar 1)
        (Scalar (RawInt 2)) (Scalar (RawCount 2))
        2 3 1 (Listed [0; 1]) 2 0 10 true
        None.

(** configs.py:48-64 *)
Definition KUHN_TWO_PLAYER : raw_config :=
  mkRaw 2 1 (Scalar 0) (Scalar 1)
        (Listed [(RawInt 1)]) (Listed [(RawCount 1)])
        1 3 1 (Listed [0]) 1 0 10 true
        None.

(** configs.py:66-82 *)
Definition KUHN_THREE_PLAYER : raw_config :=
  mkRaw 3 1 (Scalar 0) (Scalar 1)
        (Listed [(RawInt 1)]) (Listed [(RawCount 1)])
        1 3 1 (Listed [0]) 1 0 10 true
        None.

(** configs.py:84-100 *)
Definition LIMIT_HOLDEM_TWO_PLAYER : raw_config :=
  mkRaw 2 4 (Listed [1; 2]) (Scalar 0)
        (Listed [(RawInt 2); (RawInt 2); (RawInt 4); (RawInt 4)]) (Listed [(RawCount 3); (RawCount 4); (RawCount 4); (RawCount 4)])
        4 13 2 (Listed [0; 3; 1; 1]) 5 0 200 true
        None.

(** configs.py:102-118 *)
Definition LIMIT_HOLDEM_SIX_PLAYER : raw_config :=
  mkRaw 6 4 (Listed [1; 2; 0; 0; 0; 0]) (Scalar 0)
        (Listed [(RawInt 2); (RawInt 2); (RawInt 4); (RawInt 4)]) (Listed [(RawCount 3); (RawCount 4); (RawCount 4); (RawCount 4)])
        4 13 2 (Listed [0; 3; 1; 1]) 5 0 200 true
        None.

(** configs.py:120-136 *)
Definition LIMIT_HOLDEM_NINE_PLAYER : raw_config :=
  mkRaw 9 4 (Listed [1; 2; 0; 0; 0; 0; 0; 0; 0]) (Scalar 0)
        (Listed [(RawInt 2); (RawInt 2); (RawInt 4); (RawInt 4)]) (Listed [(RawCount 3); (RawCount 4); (RawCount 4); (RawCount 4)])
        4 13 2 (Listed [0; 3; 1; 1]) 5 0 200 true
        None.

(** configs.py:138-154 *)
Definition NO_LIMIT_HOLDEM_TWO_PLAYER : raw_config :=
  mkRaw 2 4 (Listed [1; 2]) (Scalar 0)
        (Scalar RawInf) (Scalar RawCountInf)
        4 13 2 (Listed [0; 3; 1; 1]) 5 0 200 true
        None.

(** configs.py:156-172 *)
Definition NO_LIMIT_HOLDEM_SIX_PLAYER : raw_config :=
  mkRaw 6 4 (Listed [1; 2; 0; 0; 0; 0]) (Scalar 0)
        (Scalar RawInf) (Scalar RawCountInf)
        4 13 2 (Listed [0; 3; 1; 1]) 5 0 200 true
        None.

(** configs.py:174-190 *)
Definition NO_LIMIT_HOLDEM_NINE_PLAYER : raw_config :=
  mkRaw 9 4 (Listed [1; 2; 0; 0; 0; 0; 0; 0; 0]) (Scalar 0)
        (Scalar RawInf) (Scalar RawCountInf)
        4 13 2 (Listed [0; 3; 1; 1]) 5 0 200 true
        None.

(** configs.py:192-208 *)
Definition NO_LIMIT_HOLDEM_BB_ANTE_NINE_PLAYER : raw_config :=
  mkRaw 9 4 (Listed [2; 4; 0; 0; 0; 0; 0; 0; 0]) (Listed [0; 1; 0; 0; 0; 0; 0; 0; 0])
        (Scalar RawInf) (Scalar RawCountInf)
        4 13 2 (Listed [0; 3; 1; 1]) 5 0 200 true
        None.

(** configs.py:210-226 *)
Definition POT_LIMIT_OMAHA_TWO_PLAYER : raw_config :=
  mkRaw 2 4 (Listed [1; 2]) (Scalar 0)
        (Scalar RawPot) (Scalar RawCountInf)
        4 13 4 (Listed [0; 3; 1; 1]) 5 2 200 true
        None.

(** configs.py:228-244 *)
Definition POT_LIMIT_OMAHA_SIX_PLAYER : raw_config :=
  mkRaw 6 4 (Listed [1; 2; 0; 0; 0; 0]) (Scalar 0)
        (Scalar RawPot) (Scalar RawCountInf)
        4 13 4 (Listed [0; 3; 1; 1]) 5 2 200 true
        None.

(** configs.py:246-262 *)
Definition POT_LIMIT_OMAHA_NINE_PLAYER : raw_config :=
  mkRaw 9 4 (Listed [1; 2; 0; 0; 0; 0; 0; 0; 0]) (Scalar 0)
        (Scalar RawPot) (Scalar RawCountInf)
        4 13 4 (Listed [0; 3; 1; 1]) 5 2 200 true
        None.

(** configs.py:264-280 *)
Definition SHORT_DECK_TWO_PLAYER : raw_config :=
  mkRaw 2 4 (Listed [1; 2]) (Scalar 0)
        (Scalar RawInf) (Scalar RawCountInf)
        4 9 2 (Listed [0; 3; 1; 1]) 5 0 200 true
        (Some ["sf"; "fk"; "fl"; "fh"; "st"; "tk"; "tp"; "pa"; "hc"]%string).

(** configs.py:282-298 *)
Definition SHORT_DECK_SIX_PLAYER : raw_config :=
  mkRaw 6 4 (Listed [1; 2; 0; 0; 0; 0]) (Scalar 0)
        (Scalar RawInf) (Scalar RawCountInf)
        4 9 2 (Listed [0; 3; 1; 1]) 5 0 200 true
        (Some ["sf"; "fk"; "fl"; "fh"; "st"; "tk"; "tp"; "pa"; "hc"]%string).

(** configs.py:300-316 *)
Definition SHORT_DECK_NINE_PLAYER : raw_config :=
  mkRaw 9 4 (Listed [1; 2; 0; 0; 0; 0; 0; 0; 0]) (Scalar 0)
        (Scalar RawInf) (Scalar RawCountInf)
        4 9 2 (Listed [0; 3; 1; 1]) 5 0 200 true
        (Some ["sf"; "fk"; "fl"; "fh"; "st"; "tk"; "tp"; "pa"; "hc"]%string).

Definition shipped_configs : list raw_config :=
  [LEDUC_TWO_PLAYER;
   KUHN_TWO_PLAYER;
   KUHN_THREE_PLAYER;
   LIMIT_HOLDEM_TWO_PLAYER;
   LIMIT_HOLDEM_SIX_PLAYER;
   LIMIT_HOLDEM_NINE_PLAYER;
   NO_LIMIT_HOLDEM_TWO_PLAYER;
   NO_LIMIT_HOLDEM_SIX_PLAYER;
   NO_LIMIT_HOLDEM_NINE_PLAYER;
   NO_LIMIT_HOLDEM_BB_ANTE_NINE_PLAYER;
   POT_LIMIT_OMAHA_TWO_PLAYER;
   POT_LIMIT_OMAHA_SIX_PLAYER;
   POT_LIMIT_OMAHA_NINE_PLAYER;
   SHORT_DECK_TWO_PLAYER;
   SHORT_DECK_SIX_PLAYER;
   SHORT_DECK_NINE_PLAYER].
