(** * C97: what random.shuffle, randrange, randint, choice and choices can give, whatever the generator draws *)
From Coq Require Import Lia Permutation.
From Verif Require Import Model.Base Model.Random.
Local Notation length := List.length (only parsing).
Local Open Scope Z_scope.

(** ** Facts *)
Lemma bits_bound n : 0 < n -> n <= 2 ^ bit_length n /\ 2 ^ bit_length n <= 2 * n /\ 0 < 2 ^ bit_length n /\ n < 2 ^ bit_length n.
Proof.
  intros H. unfold bit_length. replace (n <=? 0) with false by (symmetry; apply Z.leb_gt; lia).
  destruct (Z.log2_spec n H) as [L1 L2]. pose proof (Z.log2_nonneg n).
  rewrite Z.add_1_r in *. rewrite Z.pow_succ_r in * by lia. lia.
Qed.
Lemma draw_below_range n k ds r ds' : 0 < 2 ^ k -> draw_below n k ds = Some (r, ds') -> exists v, r = Ok v /\ 0 <= v < n.
Proof.
  intros Hk. induction ds as [|d ds IH]; cbn [draw_below]; [discriminate|].
  destruct (Z.leb_spec n (d mod 2 ^ k)) as [E|E]; [exact IH|]. intros H. injection H as <- _.
  exists (d mod 2 ^ k). split; [reflexivity|]. pose proof (Z.mod_pos_bound d (2 ^ k) Hk). lia.
Qed.
Lemma randbelow_range n ds r ds' : 0 < n -> randbelow n ds = Some (r, ds') -> exists v, r = Ok v /\ 0 <= v < n.
Proof.
  intros Hn. unfold randbelow.
  apply draw_below_range. apply (bits_bound n Hn).
Qed.
Lemma randbelow_hit n v ds : 0 <= v < n -> randbelow n (v :: ds) = Some (Ok v, ds).
Proof.
  intros Hv. unfold randbelow. cbn [draw_below].
  pose proof (bits_bound n ltac:(lia)). rewrite Z.mod_small by lia.
  replace (n <=? v) with false by (symmetry; apply Z.leb_gt; lia). reflexivity.
Qed.
Lemma randbelow_miss n d ds : 0 < n -> n <= d < 2 ^ bit_length n -> randbelow n (d :: ds) = randbelow n ds.
Proof.
  intros Hn Hd. unfold randbelow. cbn [draw_below].
  rewrite Z.mod_small by lia. replace (n <=? d) with true by (symmetry; apply Z.leb_le; lia). reflexivity.
Qed.

(** swap of two positions, and what it leaves in place *)
Lemma set_at_app {A} (l1 : list A) x y l2 : set_at (length l1) x (l1 ++ y :: l2) = l1 ++ x :: l2.
Proof. induction l1 as [|z l1 IH]; cbn; [reflexivity|]. rewrite IH. reflexivity. Qed.
Lemma nth_error_mid {A} (l1 : list A) x l2 : nth_error (l1 ++ x :: l2) (length l1) = Some x.
Proof. induction l1 as [|z l1 IH]; [reflexivity | exact IH]. Qed.
Lemma swap_split {A} (a b c : list A) x y :
  swap (length a + 1 + length b) (length a) (a ++ x :: b ++ y :: c) = a ++ y :: b ++ x :: c.
Proof.
  unfold swap.
  replace (nth_error (a ++ x :: b ++ y :: c) (length a + 1 + length b)) with (Some y).
  2: { symmetry. replace (a ++ x :: b ++ y :: c) with ((a ++ x :: b) ++ y :: c) by (rewrite <- app_assoc; reflexivity).
       replace (length a + 1 + length b)%nat with (length (a ++ x :: b)) by (rewrite app_length; cbn; lia). apply nth_error_mid. }
  rewrite nth_error_mid.
  replace (a ++ x :: b ++ y :: c) with ((a ++ x :: b) ++ y :: c) by (rewrite <- app_assoc; reflexivity).
  replace (length a + 1 + length b)%nat with (length (a ++ x :: b)) by (rewrite app_length; cbn; lia).
  rewrite set_at_app. rewrite <- app_assoc. cbn [app]. rewrite set_at_app. reflexivity.
Qed.
Lemma set_at_same {A} i (x : A) l : nth_error l i = Some x -> set_at i x l = l.
Proof.
  revert l. induction i as [|i IH]; intros [|y l]; cbn; try discriminate; [congruence|]. intros H. f_equal. exact (IH l H).
Qed.
Lemma swap_same {A} i (l : list A) : swap i i l = l.
Proof. unfold swap. destruct (nth_error l i) as [x|] eqn:E; [|reflexivity]. rewrite !(set_at_same i x l E). reflexivity. Qed.
(** [l] is [p ++ [x] ++ s] around position i; swapping i with j <= i: *)
Lemma swap_at {A} (p s : list A) x j : (j <= length p)%nat ->
  exists p' y, swap (length p) j (p ++ x :: s) = p' ++ y :: s /\ length p' = length p /\
    nth_error (p ++ [x]) j = Some y /\ Permutation (p' ++ [y]) (p ++ [x]).
Proof.
  intros Hj. destruct (Nat.eq_dec j (length p)) as [->|Hn].
  - exists p, x. rewrite swap_same. split; [reflexivity|]. split; [reflexivity|]. split; [apply nth_error_mid | reflexivity].
  - assert (Hl : (j < length p)%nat) by lia. apply nth_error_Some in Hl.
    destruct (nth_error p j) as [y|] eqn:E; [|congruence]. clear Hl.
    apply nth_error_split in E as (a & b & -> & La). exists (a ++ x :: b), y.
    subst j. split; [|split; [|split]].
    + replace ((a ++ y :: b) ++ x :: s) with (a ++ y :: b ++ x :: s) by (rewrite <- app_assoc; reflexivity).
      replace (length (a ++ y :: b)) with (length a + 1 + length b)%nat by (rewrite app_length; cbn; lia).
      rewrite swap_split, <- app_assoc. reflexivity.
    + rewrite !app_length. reflexivity.
    + rewrite <- app_assoc. apply nth_error_mid.
    + rewrite <- !app_assoc. apply Permutation_app_head. cbn [app].
      change (x :: b ++ [y]) with ([x] ++ b ++ [y]). change (y :: b ++ [x]) with ([y] ++ b ++ [x]).
      rewrite (Permutation_app_comm b [y]), (Permutation_app_comm b [x]). cbn [app]. apply perm_swap.
Qed.

Lemma shuffle_from_perm {A} i : forall (p s : list A) ds r ds', length p = S i ->
  shuffle_from i (p ++ s) ds = Some (r, ds') -> exists p', r = Ok (p' ++ s) /\ Permutation p' p.
Proof.
  induction i as [|i IH]; intros p s ds r ds' Lp; cbn [shuffle_from].
  - unfold rret. intros H. injection H as <- _. exists p. split; reflexivity.
  - unfold rbind at 1. destruct (randbelow _ ds) as [[rj ds1]|] eqn:E; [|discriminate].
    apply randbelow_range in E as (j & -> & Hj); [|lia].
    destruct (exists_last (l := p)) as (q & x & ->); [intros ->; discriminate Lp|].
    rewrite app_length in Lp. cbn in Lp. rewrite <- app_assoc. cbn [app].
    destruct (swap_at q s x (Z.to_nat j) ltac:(lia)) as (q' & y & E1 & L1 & _ & P1).
    replace (length q) with (S i) in E1 by lia. rewrite E1.
    intros H. destruct (IH q' (y :: s) ds1 r ds' ltac:(lia) H) as (p' & -> & P2).
    exists (p' ++ [y]). split; [rewrite <- app_assoc; reflexivity|].
    rewrite P2. exact P1.
Qed.

(** ** C97: results are always in range *)
(** Whatever the generator draws: a whole number of the range (ValueError if the range is empty), an element
    of the list (IndexError if it is empty), k elements of the list, the list in some order. *)
Theorem C97_randrange k ds r rest : r_randrange true k ds = Some (r, rest) ->
  if 0 <? k then exists v, r = Ok v /\ 0 <= v < k else r = Err EValue /\ rest = ds.
Proof.
  unfold r_randrange, when_seeded, py_randrange1. destruct (Z.ltb_spec 0 k) as [H|H].
  - apply randbelow_range. exact H.
  - unfold rret. intros E. injection E as <- <-. split; reflexivity.
Qed.
Theorem C97_randint a b ds r rest : r_randint true a b ds = Some (r, rest) ->
  if a <=? b then exists v, r = Ok v /\ a <= v <= b else r = Err EValue /\ rest = ds.
Proof.
  unfold r_randint, when_seeded, py_randint, py_randrange2. destruct (Z.leb_spec a b) as [H|H].
  - replace (0 <? b + 1 - a) with true by (symmetry; apply Z.ltb_lt; lia). unfold rbind.
    destruct (randbelow _ ds) as [[x ds1]|] eqn:E; [|discriminate].
    apply randbelow_range in E as (v & -> & Hv); [|lia]. unfold rret. intros E1. injection E1 as <- _.
    exists (a + v). split; [reflexivity | lia].
  - replace (0 <? b + 1 - a) with false by (symmetry; apply Z.ltb_ge; lia).
    unfold rret. intros E. injection E as <- <-. split; reflexivity.
Qed.
Theorem C97_choice {A} (l : list A) ds r rest : r_choice true l ds = Some (r, rest) ->
  (l = [] /\ r = Err EIndex) \/ (exists x, r = Ok x /\ In x l).
Proof.
  unfold r_choice, when_seeded, py_choice, rbind. destruct l as [|y l].
  - intros E. left. split; [reflexivity|]. change (Some (@Err A EIndex, ds) = Some (r, rest)) in E. congruence.
  - cbn [List.length Nat.eqb]. destruct (randbelow _ ds) as [[x ds1]|] eqn:E; [|discriminate].
    apply randbelow_range in E as (v & -> & Hv); [|cbn [length]; lia]. unfold rret.
    destruct (nth_error (y :: l) (Z.to_nat v)) as [z|] eqn:En.
    + intros E1. injection E1 as <- _. right. exists z. split; [reflexivity | exact (nth_error_In _ _ En)].
    + apply nth_error_None in En. cbn [List.length] in En; lia.
Qed.
Theorem C97_shuffle {A} (l : list A) ds r rest : r_shuffle true l ds = Some (r, rest) ->
  exists l', r = Ok l' /\ Permutation l' l.
Proof.
  unfold r_shuffle, when_seeded, py_shuffle. destruct l as [|x l].
  - cbn. unfold rret. intros E. injection E as <- _. exists []. split; reflexivity.
  - intros H. rewrite <- (app_nil_r (x :: l)) in H at 2.
    destruct (shuffle_from_perm (length (x :: l) - 1) (x :: l) [] ds r rest ltac:(cbn; lia) H) as (p & -> & P).
    rewrite app_nil_r. exists p. split; [reflexivity | exact P].
Qed.
(** the float product: the index never reaches the length *)
Lemma round53_spec p : 0 <= p -> exists u, 0 < u /\ (p < 2 ^ 53 -> u = 1) /\ (2 ^ 53 <= p -> 2 ^ 52 * u <= p) /\
  - u <= 2 * (round53 p - p) <= u /\ (p < 2 ^ 53 -> round53 p = p) /\ (2 ^ 53 <= p -> 2 <= u).
Proof.
  intros Hp. unfold round53. destruct (Z.ltb_spec p (2 ^ 53)) as [H|H].
  - exists 1. repeat split; try lia.
  - set (un := 2 ^ (Z.log2 p - 52)). assert (Hl : 53 <= Z.log2 p) by (apply Z.log2_le_pow2; lia).
    assert (U : 2 <= un). { unfold un. change 2 with (2 ^ 1) at 1. apply Z.pow_le_mono_r; lia. }
    assert (U2 : 2 ^ 52 * un <= p).
    { unfold un. rewrite <- Z.pow_add_r by lia. replace (52 + (Z.log2 p - 52)) with (Z.log2 p) by lia. apply Z.log2_spec. lia. }
    exists un. cbv zeta. pose proof (Z.div_mod p un ltac:(lia)) as D. pose proof (Z.mod_pos_bound p un ltac:(lia)) as B.
    set (q := p / un) in *. set (r := p mod un) in *.
    split; [lia|]. split; [lia|]. split; [intros _; exact U2|]. split; [|split; [lia | intros _; exact U]].
    destruct ((2 * r <? un) || ((2 * r =? un) && Z.even q))%bool eqn:E.
    + apply orb_true_iff in E. rewrite andb_true_iff, Z.ltb_lt, Z.eqb_eq in E. split; destruct E as [E|[E _]]; nia.
    + apply orb_false_iff in E as [E _]. apply Z.ltb_ge in E. split; nia.
Qed.
Lemma float_index_range m n : 0 <= m < 2 ^ 53 -> 0 < n -> 0 <= float_index m n < n.
Proof.
  intros Hm Hn. unfold float_index. destruct (round53_spec (m * n) ltac:(nia)) as (un & U & U1 & U2 & R & Sm & U3).
  destruct (Z.lt_ge_cases (m * n) (2 ^ 53)) as [H|H].
  - rewrite (Sm H). split; [apply Z.div_pos; nia|]. rewrite Z.div_small by nia. exact Hn.
  - specialize (U2 H). assert (un < 2 * n) by nia. assert (0 <= round53 (m * n)) by nia.
    split; [apply Z.div_pos; lia|]. apply Z.div_lt_upper_bound; [lia|]. nia.
Qed.
Theorem C97_choices {A} (l : list A) k ds r rest : r_choices true l k ds = Some (r, rest) ->
  (l = [] /\ 0 < k /\ r = Err EIndex) \/
  (exists xs, r = Ok xs /\ Z.of_nat (length xs) = Z.max 0 k /\ forall x, In x xs -> In x l).
Proof.
  unfold r_choices, when_seeded, py_choices.
  replace (Z.max 0 k) with (Z.of_nat (Z.to_nat k)) by lia.
  assert (Hk : (0 < k) <-> (0 < Z.to_nat k)%nat) by lia. rewrite Hk. clear Hk.
  generalize (Z.to_nat k) as n. intros n. revert ds r rest.
  induction n as [|n IH]; intros ds r rest; cbn [choices_n].
  - unfold rret. intros E. injection E as <- _. right. exists []. repeat split; intros x [].
  - destruct ds as [|d ds]; [discriminate|]. destruct (nth_error l _) as [x|] eqn:En.
    + unfold rbind. destruct (choices_n l n ds) as [[r1 ds1]|] eqn:E; [|discriminate].
      destruct (IH _ _ _ E) as [(-> & _ & ->)|(xs & -> & L & I)].
      * rewrite nth_error_nil in En || (destruct (Z.to_nat _) in En); discriminate En.
      * unfold rret. intros E1. injection E1 as <- _. right. exists (x :: xs). split; [reflexivity|].
        cbn [length]. split; [lia|]. intros z [<-|Hz]; [exact (nth_error_In _ _ En) | exact (I z Hz)].
    + intros E. injection E as <- _. left. destruct l as [|y l]; [repeat split; lia|]. exfalso.
      apply nth_error_None in En.
      pose proof (float_index_range (d mod 2 ^ 53) (Z.of_nat (length (y :: l))) (Z.mod_pos_bound d (2 ^ 53) ltac:(lia)) ltac:(cbn [length]; lia)).
      lia.
Qed.
(** before seed() every one of them raises AssertionError and draws nothing *)
Theorem C97_not_seeded {A} (l : list A) k a b ds :
  r_randrange false k ds = Some (Err EAssertion, ds) /\ r_randint false a b ds = Some (Err EAssertion, ds) /\
  r_choice false l ds = Some (Err EAssertion, ds) /\ r_choices false l k ds = Some (Err EAssertion, ds) /\
  r_shuffle false l ds = Some (Err EAssertion, ds).
Proof. repeat split. Qed.

(** ** C97: every answer is possible, and equally likely if the generator's bits are *)
(** One draw of [bits] random bits (at most half of the draws are thrown away): a number below the size of the
    range is the answer, one for each; any other is thrown away. *)
Theorem C97_number_uniform k : 0 < k -> exists bits, 0 <= bits /\ k <= 2 ^ bits <= 2 * k /\
  forall a d ds, 0 <= d < 2 ^ bits ->
    r_randrange true k (d :: ds) = (if d <? k then Some (Ok d, ds) else r_randrange true k ds) /\
    r_randint true a (a + k - 1) (d :: ds) = (if d <? k then Some (Ok (a + d), ds) else r_randint true a (a + k - 1) ds).
Proof.
  intros Hk. pose proof (bits_bound k Hk) as (B1 & B2 & B3 & B4). exists (bit_length k).
  split; [unfold bit_length; destruct (k <=? 0); [lia|]; pose proof (Z.log2_nonneg k); lia|]. split; [lia|].
  intros a d ds Hd. unfold r_randrange, r_randint, when_seeded, py_randrange1, py_randint, py_randrange2, rbind.
  replace (a + k - 1 + 1 - a) with k by lia.
  replace (0 <? k) with true by (symmetry; apply Z.ltb_lt; lia).
  destruct (Z.ltb_spec d k) as [E|E].
  - rewrite randbelow_hit by lia. split; reflexivity.
  - rewrite randbelow_miss by lia. split; reflexivity.
Qed.
Theorem C97_choice_uniform {A} (l : list A) : l <> [] -> exists bits, 0 <= bits /\
  Z.of_nat (length l) <= 2 ^ bits <= 2 * Z.of_nat (length l) /\
  forall d ds, 0 <= d < 2 ^ bits ->
    match nth_error l (Z.to_nat d) with
    | Some x => r_choice true l (d :: ds) = Some (Ok x, ds)
    | None => r_choice true l (d :: ds) = r_choice true l ds
    end.
Proof.
  intros Hl. assert (Hk : 0 < Z.of_nat (length l)) by (destruct l; [congruence | cbn [List.length]; lia]).
  pose proof (bits_bound _ Hk) as (B1 & B2 & B3 & B4). exists (bit_length (Z.of_nat (length l))).
  split; [unfold bit_length; destruct (_ <=? 0); [lia|]; pose proof (Z.log2_nonneg (Z.of_nat (length l))); lia|]. split; [lia|].
  intros d ds Hd. unfold r_choice, when_seeded, py_choice, rbind.
  replace (length l =? 0)%nat with false by (symmetry; apply Nat.eqb_neq; lia).
  destruct (nth_error l (Z.to_nat d)) as [x|] eqn:E.
  - assert (Z.to_nat d < length l)%nat by (apply nth_error_Some; congruence).
    rewrite randbelow_hit by lia. rewrite E. reflexivity.
  - apply nth_error_None in E. rewrite randbelow_miss by lia. reflexivity.
Qed.
(** For shuffle: one number for each position from the last to the second, the number for position i (from 0) being
    one of 0..i.  Every order of the list comes from such numbers, and from only one choice of them
    if the elements differ: n! choices for n! orders. *)
Inductive plan : nat -> list Z -> Prop :=
| plan_end : plan 0 []
| plan_more i j js : 0 <= j <= Z.of_nat (S i) -> plan i js -> plan (S i) (j :: js).
Lemma In_last_split {A} (x : A) p q y : Permutation (p ++ [x]) q -> In y q -> exists j, (j <= length p)%nat /\ nth_error (p ++ [x]) j = Some y.
Proof.
  intros P I. apply (Permutation_in y (Permutation_sym P)) in I. apply In_nth_error in I as [j E]. exists j. split; [|exact E].
  assert (j < length (p ++ [x]))%nat by (apply nth_error_Some; congruence). rewrite app_length in H. cbn in H. lia.
Qed.
Lemma shuffle_from_reach {A} i : forall (p p' s : list A), length p = S i -> Permutation p p' ->
  exists js, plan i js /\ shuffle_from i (p ++ s) js = Some (Ok (p' ++ s), []).
Proof.
  induction i as [|i IH]; intros p p' s Lp P.
  - exists []. split; [constructor|]. destruct p as [|x [|z p]]; try discriminate Lp.
    apply Permutation_length_1_inv in P. subst p'. reflexivity.
  - destruct (exists_last (l := p)) as (q & x & ->); [intros ->; discriminate Lp|].
    assert (Lq : length q = S i) by (rewrite app_length in Lp; cbn in Lp; lia).
    destruct (exists_last (l := p')) as (q' & y & ->).
    { intros ->. apply Permutation_sym, Permutation_nil in P. destruct q; discriminate P. }
    destruct (In_last_split x q _ y P) as (j & Hj & Ej); [apply in_or_app; right; left; reflexivity|].
    destruct (swap_at q s x j Hj) as (m & z & E1 & L1 & E2 & P1). rewrite Ej in E2. injection E2 as <-.
    assert (P2 : Permutation m q').
    { apply (Permutation_app_inv_r [y]). rewrite P1. exact P. }
    destruct (IH m q' (y :: s) ltac:(lia) P2) as (js & Pl & E). exists (Z.of_nat j :: js).
    split; [constructor; [lia | exact Pl]|]. cbn [shuffle_from]. unfold rbind at 1.
    rewrite randbelow_hit by lia. rewrite Nat2Z.id. rewrite <- !app_assoc. cbn [app].
    replace (S i) with (length q) by lia. rewrite E1. exact E.
Qed.
Lemma shuffle_from_unique {A} i : forall (p s : list A) js js' r, length p = S i -> NoDup p -> plan i js -> plan i js' ->
  shuffle_from i (p ++ s) js = Some (r, []) -> shuffle_from i (p ++ s) js' = Some (r, []) -> js = js'.
Proof.
  induction i as [|i IH]; intros p s js js' r Lp N P P' E E'.
  - inversion P. inversion P'. reflexivity.
  - inversion P as [|i1 j t Hj Pt E1 Ej]. inversion P' as [|i2 j' t' Hj' Pt' E2 Ej']. subst i1 i2 js js'.
    destruct (exists_last (l := p)) as (q & x & ->); [intros ->; discriminate Lp|].
    assert (Lq : length q = S i) by (rewrite app_length in Lp; cbn in Lp; lia).
    cbn [shuffle_from] in E, E'. unfold rbind at 1 in E. unfold rbind at 1 in E'.
    rewrite randbelow_hit in E, E' by lia. rewrite <- !app_assoc in E, E'. cbn [app] in E, E'.
    destruct (swap_at q s x (Z.to_nat j) ltac:(lia)) as (m & z & M1 & L1 & Z1 & P1).
    destruct (swap_at q s x (Z.to_nat j') ltac:(lia)) as (m' & z' & M1' & L1' & Z1' & P1').
    replace (length q) with (S i) in M1, M1' by lia. rewrite M1 in E. rewrite M1' in E'.
    destruct (shuffle_from_perm i m (z :: s) t r [] ltac:(lia) E) as (a & Ea & Pa).
    destruct (shuffle_from_perm i m' (z' :: s) t' r [] ltac:(lia) E') as (a' & Ea' & Pa').
    assert (Eq : a = a' /\ z = z').
    { assert (a ++ z :: s = a' ++ z' :: s) as H by congruence.
      assert (length a = length a') as La by (apply Permutation_length in Pa, Pa'; lia).
      clear - La H. revert a' La H. induction a as [|w a IHa]; intros [|w' a'] La H; try discriminate La.
      - split; [reflexivity | cbn in H; congruence].
      - cbn in H. injection H as <- H. injection La as La. destruct (IHa _ La H) as [-> ->]. split; reflexivity. }
    destruct Eq as [_ <-].
    assert (Z.to_nat j = Z.to_nat j').
    { apply (proj1 (NoDup_nth_error (q ++ [x])) N); [apply nth_error_Some; congruence | congruence]. }
    assert (j = j') by lia. subst j'. f_equal. rewrite M1 in M1'.
    assert (m = m').
    { assert (length m = length m') as L by lia. clear - L M1'. rename M1' into H. revert m' L H.
      induction m as [|w m IHm]; intros [|w' m'] L H; try discriminate L; [reflexivity|].
      cbn in H. injection H as <- H. injection L as L. f_equal. exact (IHm _ L H). }
    subst m'. apply (IH m (z :: s) t t' r); try assumption; [lia|].
    apply (Permutation_NoDup (Permutation_sym P1)) in N. apply NoDup_remove_1 in N. rewrite app_nil_r in N. exact N.
Qed.
Theorem C97_shuffle_uniform {A} (l l' : list A) : Permutation l l' ->
  (exists js, plan (length l - 1) js /\ r_shuffle true l js = Some (Ok l', [])) /\
  (NoDup l -> forall js js', plan (length l - 1) js -> plan (length l - 1) js' ->
     r_shuffle true l js = Some (Ok l', []) -> r_shuffle true l js' = Some (Ok l', []) -> js = js').
Proof.
  intros P. unfold r_shuffle, when_seeded, py_shuffle. destruct l as [|x l].
  - apply Permutation_nil in P. subst l'. split.
    + exists []. split; [constructor | reflexivity].
    + intros _ js js' H H'. cbn [List.length Nat.sub] in H, H'. inversion H; inversion H'; reflexivity.
  - assert (L : length (x :: l) = S (length (x :: l) - 1)) by (cbn; lia). split.
    + destruct (shuffle_from_reach _ (x :: l) l' [] L P) as (js & H & E). rewrite !app_nil_r in E. exists js. split; assumption.
    + intros N js js' H H' E E'. apply (shuffle_from_unique _ (x :: l) [] js js' (Ok l') L N H H'); rewrite app_nil_r; assumption.
Qed.
(** choices: every list of k elements is possible, for lists of up to 3 * 10^15 elements *)
Lemma float_index_hit n i : 0 <= i < n -> 3 * n <= 2 ^ 53 -> exists m, 0 <= m < 2 ^ 53 /\ float_index m n = i.
Proof.
  intros Hi Hn. exists (i * 2 ^ 53 / n + 2).
  pose proof (Z.div_mod (i * 2 ^ 53) n ltac:(lia)) as D. pose proof (Z.mod_pos_bound (i * 2 ^ 53) n ltac:(lia)) as B.
  set (q := i * 2 ^ 53 / n) in *. set (r := i * 2 ^ 53 mod n) in *.
  assert (Q0 : 0 <= q) by (apply Z.div_pos; lia).
  assert (Q : q + 2 < 2 ^ 53) by nia. split; [lia|].
  unfold float_index. destruct (round53_spec ((q + 2) * n) ltac:(nia)) as (un & U & U1 & U2 & R & Sm & U3).
  assert (Hp : (q + 2) * n = i * 2 ^ 53 - r + 2 * n) by nia.
  symmetry. apply (Z.div_unique _ _ i (round53 ((q + 2) * n) - i * 2 ^ 53)); [|lia]. left.
  destruct (Z.lt_ge_cases ((q + 2) * n) (2 ^ 53)) as [H|H].
  - rewrite (Sm H). nia.
  - specialize (U2 H). assert (un < 2 * n) by nia. lia.
Qed.
Theorem C97_choices_every {A} (l xs : list A) : 3 * Z.of_nat (length l) <= 2 ^ 53 -> (forall x, In x xs -> In x l) ->
  exists ds, r_choices true l (Z.of_nat (length xs)) ds = Some (Ok xs, []).
Proof.
  intros Hn. unfold r_choices, when_seeded, py_choices. rewrite Nat2Z.id.
  induction xs as [|x xs IH]; intros Hx.
  - exists []. reflexivity.
  - destruct IH as [ds E]; [intros z Hz; apply Hx; right; exact Hz|].
    destruct (In_nth_error l x (Hx x (or_introl eq_refl))) as [i Ei].
    assert (Hi : (i < length l)%nat) by (apply nth_error_Some; congruence).
    destruct (float_index_hit (Z.of_nat (length l)) (Z.of_nat i) ltac:(lia) Hn) as (m & Hm & Em).
    exists (m :: ds). cbn [List.length choices_n]. rewrite Z.mod_small by lia. rewrite Em, Nat2Z.id, Ei.
    unfold rbind. rewrite E. reflexivity.
Qed.
Example C97_example :
  r_shuffle true [1; 2; 3; 4] [4; 0; 2; 3; 1; 9] = Some (Ok [4; 2; 3; 1], [9]) /\
  r_randint true (-2) 3 [7; 6; 13] = Some (Ok 3, []) /\ r_randint true 3 (-2) [7] = Some (Err EValue, [7]) /\
  r_choices true [1; 2; 3] 2 [2 ^ 53 - 1; 0] = Some (Ok [3; 1], []) /\ r_choice true (@nil Z) [5] = Some (Err EIndex, [5]) /\
  plan 3 [3; 2; 1].
Proof. repeat split; try (vm_compute; reflexivity). repeat (constructor; [lia|]). constructor. Qed.
