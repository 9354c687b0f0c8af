(** * EvalFinal: proofs about evaluate, and tight decks *)
From Coq Require Import Permutation ZifyBool ZifyNat Arith.
From Verif Require Import PyBase PyFacts CardModel CardSpec EvalModel PokerSpec EvalSpec EvalCheck CardProofs
  EvalRank EvalTable EvalHands EvalLists EvalRuns EvalCfg EvalMain EvalCount EvalRare EvalSweep1 EvalSweep2.

(** ** Sub-selections *)
Lemma combs_sublist {A} (l : list A) : forall n h,
  In h (combs n l) <-> List.length h = n /\ sublist h l.
Proof.
  induction l as [|x l IH]; intros n h.
  - destruct n; cbn [combs]; split.
    + intros [<-|[]]. split; [reflexivity|constructor].
    + intros [L _]. destruct h; [now left|discriminate].
    + intros [].
    + intros [L S]. inversion S; subst. discriminate.
  - destruct n as [|n]; cbn [combs]; split.
    + intros [<-|[]]. split; [reflexivity|constructor].
    + intros [L _]. destruct h; [now left|discriminate].
    + intros H. apply in_app_or in H. destruct H as [H|H].
      * apply in_map_iff in H. destruct H as (h' & <- & H). apply IH in H. destruct H as [L S].
        split; [cbn; now rewrite L|now constructor].
      * apply (IH (S n)) in H. destruct H as [L S]. split; [exact L|now constructor].
    + intros [L S]. apply in_or_app. inversion S as [|? a ? S'|? ? ? S']; subst; [discriminate| |].
      * left. apply in_map. apply IH. cbn in L. split; [lia|exact S'].
      * right. apply IH. split; [exact L|exact S'].
Qed.

Lemma sublist_incl {A} (a l : list A) : sublist a l -> incl a l.
Proof.
  induction 1 as [l|x a l _ IH|x a l _ IH]; intros y Hy; [destruct Hy| |].
  - destruct Hy as [<-|Hy]; [now left|right; now apply IH].
  - right. now apply IH.
Qed.
Lemma sublist_nodup {A} (a l : list A) : sublist a l -> NoDup l -> NoDup a.
Proof.
  induction 1 as [l|x a l S IH|x a l _ IH]; intros N; [constructor| |].
  - inversion N; subst. constructor; [|now apply IH]. intros Hx. apply (sublist_incl _ _ S) in Hx.
    contradiction.
  - inversion N; subst. now apply IH.
Qed.
Lemma sublist_perm {A} (l l' : list A) : Permutation l l' -> forall a, sublist a l ->
  exists a', sublist a' l' /\ Permutation a a'.
Proof.
  induction 1 as [|x l l' _ IH|x y l|l l' l'' _ IH1 _ IH2]; intros a S.
  - exists a. split; [exact S|reflexivity].
  - inversion S as [|? b ? S'|? ? ? S']; subst.
    + exists []. split; constructor.
    + destruct (IH b S') as (b' & S'' & P). exists (x :: b'). split; [now constructor|now constructor].
    + destruct (IH a S') as (a' & S'' & P). exists a'. split; [now constructor|exact P].
  - inversion S as [|? b ? S'|? ? ? S']; subst.
    + exists []. split; constructor.
    + inversion S' as [|? b' ? S''|? ? ? S'']; subst.
      * exists [y]. split; [do 2 constructor; constructor|reflexivity].
      * exists (x :: y :: b'). split; [now repeat constructor|constructor].
      * exists (y :: b). split; [now repeat constructor|reflexivity].
    + inversion S' as [|? b' ? S''|? ? ? S'']; subst.
      * exists []. split; constructor.
      * exists (x :: b'). split; [now repeat constructor|reflexivity].
      * exists a. split; [now repeat constructor|reflexivity].
  - destruct (IH1 a S) as (b & S1 & P1). destruct (IH2 b S1) as (d & S2 & P2).
    exists d. split; [exact S2|now transitivity b].
Qed.
Lemma sublist_app_l {A} (a l m : list A) : sublist a l -> sublist a (l ++ m).
Proof. induction 1; cbn [app]; now constructor. Qed.
Lemma sublist_app {A} (a b l m : list A) : sublist a l -> sublist b m -> sublist (a ++ b) (l ++ m).
Proof.
  induction 1; intros S; cbn [app]; [|now constructor; auto|now constructor; auto].
  induction l; [exact S|now constructor].
Qed.
Lemma sublist_map_inv {A B} (f : A -> B) l : forall h, sublist h (map f l) ->
  exists h', h = map f h' /\ sublist h' l.
Proof.
  induction l as [|x l IH]; intros h S; cbn [map] in S.
  - inversion S; subst. exists []. split; [reflexivity|constructor].
  - inversion S as [|? b ? S'|? ? ? S']; subst.
    + exists []. split; [reflexivity|constructor].
    + destruct (IH b S') as (h' & -> & S''). exists (x :: h'). split; [reflexivity|now constructor].
    + destruct (IH h S') as (h' & -> & S''). exists h'. split; [reflexivity|now constructor].
Qed.

(** ** The hands evaluate may choose from *)
Lemma card_combs_ok e hole community : 0 <= e_mandatory e <= e_cfh e ->
  exists cs, card_combs e hole community = Ok cs /\
  forall h, In h cs <-> candidate e hole community h.
Proof.
  intros Hm. unfold card_combs, candidate. destruct (e_mandatory e =? 0) eqn:E0.
  - unfold combinations. replace (e_cfh e <? 0) with false by lia. eexists. split; [reflexivity|].
    intros h. rewrite combs_sublist. split; intros [H1 H2]; split; try assumption; lia.
  - unfold combinations. replace (e_mandatory e <? 0) with false by lia. cbn [bind].
    destruct (e_cfh e - e_mandatory e =? 0) eqn:E1.
    + eexists. split; [reflexivity|]. intros h. rewrite combs_sublist. split.
      * intros [L S]. exists h, []. rewrite app_nil_r. repeat split; [exact S|constructor|lia|cbn; lia].
      * intros (a & b & -> & Sa & Sb & La & Lb). destruct b; [|cbn in Lb; lia].
        rewrite app_nil_r. split; [lia|exact Sa].
    + replace (e_cfh e - e_mandatory e <? 0) with false by lia. cbn [bind].
      eexists. split; [reflexivity|]. intros h. rewrite in_map_iff. split.
      * intros ((a & b) & <- & Hin). apply in_prod_iff in Hin. destruct Hin as [Ha Hb].
        apply combs_sublist in Ha, Hb. exists a, b. cbn [fst snd].
        repeat split; [apply Ha|apply Hb|lia|lia].
      * intros (a & b & -> & Sa & Sb & La & Lb). exists (a, b). split; [reflexivity|].
        apply in_prod_iff. rewrite !combs_sublist. repeat split; try assumption; lia.
Qed.

Lemma table_lookup_error t h e : h <> [] -> table_lookup t h = Err e -> e = KeyError.
Proof.
  intros N. unfold table_lookup. destruct h as [|x h]; [congruence|]. cbn [map].
  destruct (negb _); destruct (dict_find _ _); congruence.
Qed.

Definition evaluate_fold (t : lookup_table) (cs : list (list card)) (m : Z) : result Z :=
  fold_res (fun minimum comb =>
              let* score := table_lookup t comb in
              Ok (if score <? minimum then score else minimum)) cs m.

Lemma evaluate_fold_spec t cs : forall m, (forall h, In h cs -> h <> []) ->
  match evaluate_fold t cs m with
  | Ok v => v <= m /\ (forall h, In h cs -> exists w, table_lookup t h = Ok w /\ v <= w) /\
            (v = m \/ exists h, In h cs /\ table_lookup t h = Ok v)
  | Err e => e = KeyError /\ exists h, In h cs /\ table_lookup t h = Err KeyError
  end.
Proof.
  induction cs as [|h cs IH]; intros m N; cbn [evaluate_fold fold_res].
  - split; [lia|]. split; [intros h []|now left].
  - destruct (table_lookup t h) as [w|e] eqn:E; cbn [bind].
    + fold (evaluate_fold t cs (if w <? m then w else m)).
      specialize (IH (if w <? m then w else m) (fun h' H => N h' (or_intror H))).
      destruct (evaluate_fold t cs (if w <? m then w else m)) as [v|e].
      * destruct IH as (H1 & H2 & H3). split; [destruct (w <? m) eqn:Ew; lia|]. split.
        -- intros h' [<-|Hh']; [exists w; split; [exact E|destruct (w <? m) eqn:Ew; lia]|now apply H2].
        -- destruct H3 as [H3|(h' & Hh' & L)]; [|right; exists h'; split; [now right|exact L]].
           destruct (w <? m); [right; exists h; split; [now left|congruence]|now left].
      * destruct IH as (H1 & h' & Hh' & L). split; [exact H1|]. exists h'. split; [now right|exact L].
    + assert (e = KeyError) by (eapply table_lookup_error; [apply N; now left|exact E]). subst.
      split; [reflexivity|]. exists h. split; [now left|exact E].
Qed.

(** evaluate for arbitrary card lists *)
Lemma evaluate_spec e hole community :
  1 <= e_cfh e -> 0 <= e_mandatory e <= e_cfh e ->
  match evaluate e hole community with
  | Ok v => v <= t_max_rank (e_table e) /\
      (forall h, candidate e hole community h ->
         exists w, table_lookup (e_table e) h = Ok w /\ v <= w) /\
      (v = t_max_rank (e_table e) \/
       exists h, candidate e hole community h /\ table_lookup (e_table e) h = Ok v)
  | Err x => x = KeyError /\
      exists h, candidate e hole community h /\ table_lookup (e_table e) h = Err KeyError
  end.
Proof.
  intros Hc Hm. destruct (card_combs_ok e hole community Hm) as (cs & E & Hcs).
  unfold evaluate. rewrite E. cbn [bind].
  fold (evaluate_fold (e_table e) cs (t_max_rank (e_table e))).
  pose proof (evaluate_fold_spec (e_table e) cs (t_max_rank (e_table e))) as S.
  assert (N : forall h, In h cs -> h <> []).
  { intros h Hh ->. apply Hcs in Hh. unfold candidate in Hh. destruct (e_mandatory e =? 0).
    - destruct Hh as [_ L]. cbn in L. lia.
    - destruct Hh as (a & b & X & _ & _ & L1 & L2). symmetry in X. apply app_eq_nil in X.
      destruct X as [-> ->]. cbn in *. lia. }
  specialize (S N).
  destruct (evaluate_fold (e_table e) cs (t_max_rank (e_table e))) as [v|x].
  - destruct S as (H1 & H2 & H3). split; [exact H1|]. split.
    + intros h Hh. apply H2, Hcs, Hh.
    + destruct H3 as [H3|(h & Hh & L)]; [now left|]. right. exists h. split; [now apply Hcs|exact L].
  - destruct S as (H1 & h & Hh & L). split; [exact H1|]. exists h. split; [now apply Hcs|exact L].
Qed.

(** negative or excessive numbers of mandatory hole cards *)
Lemma evaluate_bad_mandatory e hole community :
  1 <= e_cfh e -> e_mandatory e < 0 \/ e_cfh e < e_mandatory e ->
  evaluate e hole community = Err ValueError.
Proof.
  intros Hc Hm. unfold evaluate, card_combs, combinations.
  replace (e_mandatory e =? 0) with false by lia.
  destruct (e_mandatory e <? 0) eqn:E; [reflexivity|]. cbn [bind].
  replace (e_cfh e - e_mandatory e =? 0) with false by lia.
  now replace (e_cfh e - e_mandatory e <? 0) with true by lia.
Qed.

(** two candidate sets that agree up to [R] give the same result *)
Lemma evaluate_transfer e hole community hole' community' :
  1 <= e_cfh e -> 0 <= e_mandatory e <= e_cfh e ->
  (forall h, candidate e hole community h -> exists h', candidate e hole' community' h' /\
     table_lookup (e_table e) h' = table_lookup (e_table e) h) ->
  (forall h, candidate e hole' community' h -> exists h', candidate e hole community h' /\
     table_lookup (e_table e) h' = table_lookup (e_table e) h) ->
  evaluate e hole community = evaluate e hole' community'.
Proof.
  intros Hc Hm A B.
  pose proof (evaluate_spec e hole community Hc Hm) as S.
  pose proof (evaluate_spec e hole' community' Hc Hm) as S'.
  destruct (evaluate e hole community) as [v|x], (evaluate e hole' community') as [v'|x'].
  - f_equal. destruct S as (S1 & S2 & S3), S' as (S1' & S2' & S3').
    apply Z.le_antisymm.
    + destruct S3' as [->|(h & Hh & L)]; [exact S1|].
      destruct (B h Hh) as (h' & Hh' & L'). destruct (S2 h' Hh') as (w & Lw & Hw). 
      rewrite L', L in Lw. injection Lw as <-. exact Hw.
    + destruct S3 as [->|(h & Hh & L)]; [exact S1'|].
      destruct (A h Hh) as (h' & Hh' & L'). destruct (S2' h' Hh') as (w & Lw & Hw). 
      rewrite L', L in Lw. injection Lw as <-. exact Hw.
  - exfalso. destruct S' as (_ & h & Hh & L). destruct S as (_ & S2 & _).
    destruct (B h Hh) as (h' & Hh' & L'). destruct (S2 h' Hh') as (w & Lw & _). congruence.
  - exfalso. destruct S as (_ & h & Hh & L). destruct S' as (_ & S2 & _).
    destruct (A h Hh) as (h' & Hh' & L'). destruct (S2 h' Hh') as (w & Lw & _). congruence.
  - destruct S as [-> _], S' as [-> _]. reflexivity.
Qed.

(** ** Permutations *)
Lemma fold_land_perm a b : Permutation a b -> forall x, fold_left Z.land a x = fold_left Z.land b x.
Proof.
  induction 1 as [|y a b _ IH|y z a|a b d _ IH1 _ IH2]; intros x; cbn [fold_left].
  - reflexivity.
  - apply IH.
  - f_equal. rewrite <- !Z.land_assoc. f_equal. apply Z.land_comm.
  - now rewrite IH1.
Qed.
Lemma fold_lor_perm a b : Permutation a b -> forall x, fold_left Z.lor a x = fold_left Z.lor b x.
Proof.
  induction 1 as [|y a b _ IH|y z a|a b d _ IH1 _ IH2]; intros x; cbn [fold_left].
  - reflexivity.
  - apply IH.
  - f_equal. rewrite <- !Z.lor_assoc. f_equal. apply Z.lor_comm.
  - now rewrite IH1.
Qed.
Lemma reduce_lor l x : fold_left Z.lor l x = fold_left Z.lor (x :: l) 0.
Proof. cbn [fold_left]. now rewrite Z.lor_0_l. Qed.
Lemma lookup_perm t h h' : Permutation h h' -> table_lookup t h = table_lookup t h'.
Proof.
  intros P. unfold table_lookup.
  pose proof (Permutation_map c_int P) as Pi.
  rewrite (fold_land_perm _ _ Pi).
  assert (Hp : prime_product_from_hand h = prime_product_from_hand h').
  { clear Pi. unfold prime_product_from_hand. generalize 1.
    induction P as [|y a b _ IH|y z a|a b d _ IH1 _ IH2]; intros x; cbn [fold_left].
    - reflexivity.
    - apply IH.
    - f_equal. lia.
    - now rewrite IH1. }
  rewrite Hp. destruct (negb _); [|reflexivity].
  destruct (map c_int h) as [|i r] eqn:E1, (map c_int h') as [|i' r'] eqn:E2.
  - reflexivity.
  - apply Permutation_nil in Pi. discriminate.
  - apply Permutation_sym, Permutation_nil in Pi. discriminate.
  - rewrite (reduce_lor r i), (reduce_lor r' i'). now rewrite (fold_lor_perm _ _ Pi).
Qed.

Lemma candidate_perm e hole hole' com com' : Permutation hole hole' -> Permutation com com' ->
  forall h, candidate e hole com h -> exists h', candidate e hole' com' h' /\ Permutation h h'.
Proof.
  intros P Q h. unfold candidate. destruct (e_mandatory e =? 0).
  - intros [S L]. destruct (sublist_perm _ _ (Permutation_app P Q) h S) as (h' & S' & Ph).
    exists h'. split; [|exact Ph]. split; [exact S'|]. now rewrite <- (Permutation_length Ph).
  - intros (a & b & -> & Sa & Sb & La & Lb).
    destruct (sublist_perm _ _ P a Sa) as (a' & Sa' & Pa).
    destruct (sublist_perm _ _ Q b Sb) as (b' & Sb' & Pb).
    exists (a' ++ b'). split; [|now apply Permutation_app].
    exists a', b'. rewrite <- (Permutation_length Pa), <- (Permutation_length Pb). auto.
Qed.

Lemma evaluate_perm e hole hole' com com' : 1 <= e_cfh e ->
  Permutation hole hole' -> Permutation com com' ->
  evaluate e hole com = evaluate e hole' com'.
Proof.
  intros Hc P Q.
  destruct (Z_le_dec 0 (e_mandatory e)) as [H0|H0]; [destruct (Z_le_dec (e_mandatory e) (e_cfh e)) as [H1|H1]|].
  2,3: rewrite !evaluate_bad_mandatory by lia; reflexivity.
  apply evaluate_transfer; [exact Hc|lia| |].
  - intros h Hh. destruct (candidate_perm e _ _ _ _ P Q h Hh) as (h' & Hh' & Ph).
    exists h'. split; [exact Hh'|]. now apply lookup_perm, Permutation_sym.
  - intros h Hh. destruct (candidate_perm e _ _ _ _ (Permutation_sym P) (Permutation_sym Q) h Hh)
      as (h' & Hh' & Ph).
    exists h'. split; [exact Hh'|]. now apply lookup_perm, Permutation_sym.
Qed.

(** ** More cards *)
Lemma evaluate_mono e hole com hole' com' v' : 1 <= e_cfh e -> 
  (forall h, candidate e hole com h -> candidate e hole' com' h) ->
  evaluate e hole' com' = Ok v' -> exists v, evaluate e hole com = Ok v /\ v' <= v.
Proof.
  intros Hc Hin E.
  destruct (Z_le_dec 0 (e_mandatory e)) as [H0|H0]; [destruct (Z_le_dec (e_mandatory e) (e_cfh e)) as [H1|H1]|].
  2,3: rewrite evaluate_bad_mandatory in E by lia; discriminate.
  pose proof (evaluate_spec e hole com Hc ltac:(lia)) as S.
  pose proof (evaluate_spec e hole' com' Hc ltac:(lia)) as S'. rewrite E in S'.
  destruct S' as (A & B & _). destruct (evaluate e hole com) as [v|x].
  - exists v. split; [reflexivity|]. destruct S as (_ & _ & [->|(h & Hh & L)]); [exact A|].
    destruct (B h (Hin h Hh)) as (w & Lw & Hw). rewrite L in Lw. injection Lw as <-. exact Hw.
  - exfalso. destruct S as (_ & h & Hh & L). destruct (B h (Hin h Hh)) as (w & Lw & _). congruence.
Qed.

(** ** Suits *)
Lemma rename_fst p h : map fst (rename p h) = map fst h.
Proof. unfold rename. rewrite map_map. reflexivity. Qed.
Lemma rename_same p h : (forall a b, (a < 4)%nat -> (b < 4)%nat -> p a = p b -> a = b) ->
  in_range h -> same_suit (rename p h) = same_suit h.
Proof.
  intros Inj R. destruct h as [|[i j] h]; [reflexivity|]. cbn [rename map same_suit fst snd].
  inversion R as [|? ? [_ Hj] R']; subst. cbn [snd] in Hj. clear R.
  induction R' as [|[a b] h [_ Hb] R' IH]; [reflexivity|]. cbn [map forallb fst snd] in *.
  rewrite IH. f_equal. destruct (Nat.eqb b j) eqn:E.
  - apply Nat.eqb_eq in E. subst. apply Nat.eqb_refl.
  - apply Nat.eqb_neq in E. apply Nat.eqb_neq. intros X. apply E. now apply Inj.
Qed.

Lemma lookup_general t h : in_range h -> h <> [] ->
  table_lookup t (cards_of h)
  = match dict_find (if same_suit h then t_suited t else t_unsuited t)
                    (if same_suit h then prime_product_from_rank_bits (or_bits (map fst h) 0)
                     else prime_prod (map fst h)) with
    | Some v => Ok v
    | None => Err KeyError
    end.
Proof.
  intros R N. unfold table_lookup. rewrite suited_test by assumption. rewrite negb_involutive.
  destruct (same_suit h); [|now rewrite product_hand].
  destruct (map c_int (cards_of h)) as [|x r] eqn:E.
  - apply (f_equal (@List.length Z)) in E. unfold cards_of in E. rewrite !map_length in E.
    destruct h; [congruence|discriminate].
  - rewrite reduce_lor, <- E, shiftr_or by assumption. reflexivity.
Qed.

Lemma lookup_rename t p h : (forall a, (a < 4)%nat -> (p a < 4)%nat) ->
  (forall a b, (a < 4)%nat -> (b < 4)%nat -> p a = p b -> a = b) ->
  in_range h -> table_lookup t (cards_of (rename p h)) = table_lookup t (cards_of h).
Proof.
  intros Rg Inj R. destruct h as [|x h]; [reflexivity|].
  assert (R' : in_range (rename p (x :: h))).
  { unfold in_range, rename. apply Forall_map. eapply Forall_impl; [|exact R]. cbn. intros c [H1 H2].
    split; [exact H1|now apply Rg]. }
  rewrite !lookup_general by (assumption || discriminate).
  now rewrite rename_same, rename_fst.
Qed.

(** ** Deck cards as hands *)
Lemma cards_as_hand s r l : (s <= 4)%nat -> (r <= 13)%nat ->
  NoDup l -> incl l (deck_cards s r) ->
  exists h, l = cards_of h /\ NoDup h /\
    Forall (fun p => (13 - r <= fst p < 13 /\ snd p < s)%nat) h.
Proof.
  intros Hs Hr. induction l as [|x l IH]; intros N I.
  - exists []. repeat split; constructor.
  - inversion N as [|? ? Hx N']; subst.
    destruct (IH N' (fun y Hy => I y (or_intror Hy))) as (h & -> & Nh & F).
    pose proof (I x (or_introl eq_refl)) as Hd. apply in_deck_cards in Hd; [|exact Hr].
    destruct Hd as (i & j & Hi & Hj & ->). exists ((i, j) :: h). repeat split.
    + constructor; [|exact Nh]. intros Hin. apply Hx. unfold cards_of. apply in_map_iff.
      exists (i, j). auto.
    + constructor; [cbn [fst snd]; lia|exact F].
Qed.

(** ** Tight decks *)
Lemma tight_facts s c : 1 <= s <= 4 -> 3 <= c <= 5 -> tight_ok s c = true.
Proof.
  intros Hs Hc. pose proof sweep_tight as H. rewrite forallb_forall in H.
  specialize (H s). rewrite in_zrange in H. specialize (H ltac:(lia)). rewrite forallb_forall in H.
  apply H. rewrite in_zrange. lia.
Qed.

Lemma tight_hand s c t h : 1 <= s <= 4 -> 3 <= c <= 5 -> zhand s c c h ->
  exists o, In (zclass s c c false h, o) (tight_hands s c t) /\
    table_lookup t (cards_of h) = match o with Some v => Ok v | None => Err KeyError end.
Proof.
  intros Hs Hc Hh.
  exists (dict_find (if same_suit h then t_suited t else t_unsuited t) (prime_prod (map fst h))).
  assert (Hrange : in_range h)
    by exact (hand_in_range (Z.to_nat s) (Z.to_nat c) (Z.to_nat c) ltac:(lia) ltac:(lia) h Hh).
  assert (P : Permutation (map fst h) (canon (Z.to_nat c) (map fst h))).
  { apply canon_perm; [lia|]. eapply hand_ranks_range. exact Hh. }
  split.
  - unfold tight_hands. apply in_map_iff. exists (same_suit h, canon (Z.to_nat c) (map fst h)).
    cbn [fst snd]. split.
    + f_equal.
      * unfold zclass, class_of. symmetry. now apply classify_perm.
      * now rewrite (prime_prod_perm _ _ P).
    + apply canon_abstract; first [lia|exact Hh].
  - apply lookup_ranks; [exact Hrange| |].
    + destruct Hh as (L & _). destruct h; [cbn in L; lia|discriminate].
    + intros E. exact (same_suit_nodup (Z.to_nat s) (Z.to_nat c) (Z.to_nat c) ltac:(lia) ltac:(lia) h Hh E).
Qed.

(** ** Counts are non-negative whenever a table exists *)
Lemma built_nonneg s r c low order t : 1 <= s <= 4 -> 1 <= r <= 13 -> 1 <= c <= 5 ->
  order_perm order -> LookupTable s r c low order = Ok t ->
  exists hs, Permutation all_classes hs /\ t_ranking t = compute_ranking (hand_counts s r c low) hs /\
    forall k, 0 <= snd (hand_counts s r c low k).
Proof.
  intros Hs Hr Hc Hord Ht.
  destruct (LookupTable_built _ _ _ _ _ _ Ht) as
      (Hval & hs & s1 & s2 & u1 & u2 & l1 & l2 & l3 & l4 & l5 & Hhs & B).
  pose proof (ranked_classes_perm _ _ _ Hord Hval Hhs) as P.
  exists hs. split; [exact P|]. split; [apply (b_ranking _ _ _ _ _ _ _ _ _ _ _ _ _ _ _ B)|].
  pose proof sweep_nonneg as H. rewrite forallb_forall in H.
  specialize (H s). rewrite in_zrange in H. specialize (H ltac:(lia)).
  rewrite forallb_forall in H. specialize (H r). rewrite in_zrange in H. specialize (H ltac:(lia)).
  rewrite forallb_forall in H. specialize (H c). rewrite in_zrange in H. specialize (H ltac:(lia)).
  rewrite forallb_forall in H. specialize (H low ltac:(destruct low; cbn; tauto)).
  unfold check_nonneg in H. rewrite (built_buildable _ _ _ _ _ _ _ _ _ _ _ _ _ _ _ P B) in H.
  destruct (forallb _ _) eqn:E in H; [|discriminate]. rewrite forallb_forall in E. intros k.
  specialize (E k (all_classes_in k)). unfold ucount in E. lia.
Qed.

(** the rank classes cover exactly 0 .. max_rank *)
Lemma rank_class_domain s r c low order t v : 1 <= s <= 4 -> 1 <= r <= 13 -> 1 <= c <= 5 ->
  order_perm order -> LookupTable s r c low order = Ok t ->
  0 < t_max_rank t ->
  (exists k, find (fun k => v <=? r_cum (t_ranking t) k) (r_ranked (t_ranking t)) = Some k)
  <-> v <= t_max_rank t.
Proof.
  intros Hs Hr Hc Hord Ht Hpos.
  destruct (built_nonneg _ _ _ _ _ _ Hs Hr Hc Hord Ht) as (hs & P & Er & Hn).
  unfold t_max_rank in *. rewrite Er in *.
  assert (N : NoDup hs) by (eapply Permutation_NoDup; [exact P|apply all_classes_nodup]).
  change (compute_ranking (hand_counts s r c low) hs) with (rfold (hand_counts s r c low) hs init_ranking) in *.
  destruct (rinv_fold _ Hn hs) as [[A _]|(_ & p & x & B & C & _)]; [lia|].
  split.
  - intros (k & Hk). apply find_some in Hk. destruct Hk as [Hin Hle].
    assert (Hcum : r_cum (rfold (hand_counts s r c low) hs init_ranking) k
                   <= r_total (rfold (hand_counts s r c low) hs init_ranking)).
    { assert (Hk : In k hs) by (eapply Permutation_in; [exact P|apply all_classes_in]).
      pose proof (class_pos_split k hs Hk) as E.
      assert (Ec : r_cum (rfold (hand_counts s r c low) hs init_ranking) k
                   = sumU (hand_counts s r c low) (firstn (class_pos k hs) hs)
                     + snd (hand_counts s r c low k)).
      { rewrite E in N. rewrite E at 1. exact (cum_at _ _ _ _ N). }
      rewrite Ec, rfold_total. cbn [init_ranking r_total].
      pose proof (f_equal (sumU (hand_counts s r c low)) E) as Es. rewrite sumU_app, sumU_cons in Es.
      pose proof (sumU_nonneg _ Hn (skipn (S (class_pos k hs)) hs)). lia. }
    lia.
  - intros Hv. destruct (find _ _) as [k|] eqn:E; [now exists k|].
    exfalso. apply find_none with (x := x) in E; [|rewrite B; apply in_or_app; right; now left].
    rewrite C in E. lia.
Qed.
