(** Facts about the base notions. *)
From Coq Require Export Lia ZifyBool ZifyNat ZifyN.
From Coq Require Import Permutation.
From Verif Require Import Model.Base.

Lemma str_eqb_spec a b : reflect (a = b) (str_eqb a b).
Proof.
  revert b; induction a as [|x a IH]; intros [|y b]; simpl; try (constructor; congruence).
  destruct (N.eqb_spec x y) as [->|Hn]; simpl.
  - destruct (IH b) as [->|Hn]; constructor; congruence.
  - constructor; congruence.
Qed.
Lemma str_eqb_eq a b : str_eqb a b = true <-> a = b.
Proof. destruct (str_eqb_spec a b); split; congruence. Qed.
Lemma str_eqb_neq a b : str_eqb a b = false <-> a <> b.
Proof. destruct (str_eqb_spec a b); split; congruence. Qed.
Lemma str_eqb_refl a : str_eqb a a = true.
Proof. apply str_eqb_eq; reflexivity. Qed.
Lemma str_eqb_sym a b : str_eqb a b = str_eqb b a.
Proof. destruct (str_eqb_spec a b), (str_eqb_spec b a); congruence. Qed.
Lemma pystr_eq_dec (a b : pystr) : {a = b} + {a <> b}.
Proof. destruct (str_eqb_spec a b); [left|right]; assumption. Qed.

Lemma startswith_spec s p : startswith s p = true <-> exists r, s = p ++ r.
Proof.
  revert s; induction p as [|x p IH]; intros s; simpl.
  - split; [intros _; exists s; reflexivity | reflexivity].
  - destruct s as [|y s].
    + split; [discriminate | intros [r Hr]; discriminate].
    + rewrite andb_true_iff, N.eqb_eq, IH. split.
      * intros [-> [r ->]]; exists r; reflexivity.
      * intros [r Hr]; injection Hr as -> ->; split; [reflexivity | exists r; reflexivity].
Qed.
Lemma endswith_spec s p : endswith s p = true <-> exists r, s = r ++ p.
Proof.
  unfold endswith. rewrite startswith_spec. split; intros [r Hr].
  - exists (rev r). rewrite <- (rev_involutive s), Hr, rev_app_distr, rev_involutive. reflexivity.
  - exists (rev r). rewrite Hr, rev_app_distr. reflexivity.
Qed.
Lemma startswith_app p s : startswith (p ++ s) p = true.
Proof. apply startswith_spec; exists s; reflexivity. Qed.

Lemma has_char_spec c s : has_char c s = true <-> In c s.
Proof.
  unfold has_char. rewrite existsb_exists. split.
  - intros [x [Hx He]]. apply N.eqb_eq in He; subst; exact Hx.
  - intros H; exists c; split; [exact H | apply N.eqb_refl].
Qed.
Lemma has_char_false c s : has_char c s = false <-> ~ In c s.
Proof. rewrite <- has_char_spec. destruct (has_char c s); split; congruence. Qed.

Lemma str_mem_spec x l : str_mem x l = true <-> In x l.
Proof.
  unfold str_mem. rewrite existsb_exists. split.
  - intros [y [Hy He]]. apply str_eqb_eq in He; subst; exact Hy.
  - intros H; exists x; split; [exact H | apply str_eqb_refl].
Qed.

Lemma split1_Some c s a b : split1 c s = Some (a, b) <-> s = a ++ c :: b /\ ~ In c a.
Proof.
  revert a b; induction s as [|x s IH]; intros a b; simpl.
  - split; [discriminate | intros [H _]; destruct a; discriminate].
  - destruct (N.eqb_spec x c) as [->|Hn].
    + split.
      * intros H; injection H as <- <-; split; [reflexivity | intros []].
      * intros [H Hi]. destruct a as [|y a]; simpl in *; injection H.
        -- intros ->; reflexivity.
        -- intros _ ->. exfalso; apply Hi; left; reflexivity.
    + destruct (split1 c s) as [[a' b']|] eqn:E.
      * split.
        -- intros H; injection H as <- <-.
           destruct (proj1 (IH a' b') eq_refl) as [-> Hi].
           split; [reflexivity | intros [?|?]; [congruence | contradiction]].
        -- intros [H Hi]. destruct a as [|y a]; simpl in *; injection H.
           ++ intros _ ?; congruence.
           ++ intros Hs ->. assert (Some (a', b') = Some (a, b)) as HH.
              { apply IH; split; [exact Hs | intros ?; apply Hi; right; assumption]. }
              injection HH as <- <-; reflexivity.
      * split; [discriminate|]. intros [H Hi]. destruct a as [|y a]; simpl in *; injection H.
        -- intros _ ?; congruence.
        -- intros Hs ->. assert (None = Some (a, b)) as HH.
           { apply IH; split; [exact Hs | intros ?; apply Hi; right; assumption]. }
           discriminate.
Qed.
Lemma split1_None c s : split1 c s = None <-> ~ In c s.
Proof.
  induction s as [|x s IH]; simpl; [split; [intros _ [] | reflexivity]|].
  destruct (N.eqb_spec x c) as [->|Hn].
  - split; [discriminate | intros H; exfalso; apply H; left; reflexivity].
  - destruct (split1 c s) as [[a b]|].
    + split; [discriminate|]. intros H. assert (Some (a, b) = None) by (apply IH; tauto). discriminate.
    + split; [|reflexivity]. intros _ [?|Hi]; [congruence|]. apply (proj1 IH); [reflexivity | exact Hi].
Qed.
Lemma split1_app c a b : ~ In c a -> split1 c (a ++ c :: b) = Some (a, b).
Proof. intros H; apply split1_Some; split; [reflexivity | exact H]. Qed.

Lemma split_all_nonnil c s : split_all c s <> [].
Proof. induction s as [|x s IH]; simpl; [discriminate|]. destruct (N.eqb x c); [discriminate|]. destruct (split_all c s); discriminate. Qed.
Lemma split_all_join c ps : ps <> [] -> (forall p, In p ps -> ~ In c p) -> split_all c (join [c] ps) = ps.
Proof.
  induction ps as [|p ps IH]; intros Hne Hps; [congruence|].
  assert (Hp : ~ In c p) by (apply Hps; left; reflexivity).
  assert (forall r, split_all c (p ++ r) = match split_all c r with [] => [p] | q :: qs => (p ++ q) :: qs end) as Hs.
  { intros r. clear -Hp. induction p as [|x p IHp]; simpl.
    - destruct (split_all c r) eqn:E; [exfalso; eapply split_all_nonnil; exact E | reflexivity].
    - destruct (N.eqb_spec x c) as [->|_]; [exfalso; apply Hp; left; reflexivity|].
      rewrite IHp by (intros ?; apply Hp; right; assumption). destruct (split_all c r); reflexivity. }
  destruct ps as [|q ps].
  - cbn [join]. rewrite <- (app_nil_r p), Hs. cbn. rewrite app_nil_r; reflexivity.
  - change (join [c] (p :: q :: ps)) with (p ++ c :: join [c] (q :: ps)).
    rewrite Hs. replace (split_all c (c :: join [c] (q :: ps))) with ([] :: split_all c (join [c] (q :: ps)))
      by (simpl; rewrite N.eqb_refl; reflexivity).
    rewrite IH; [rewrite app_nil_r; reflexivity | discriminate |].
    intros p' Hp'; apply Hps; right; exact Hp'.
Qed.
Lemma join_split_all c s : join [c] (split_all c s) = s.
Proof.
  induction s as [|x s IH]; [reflexivity|]. simpl.
  destruct (N.eqb_spec x c) as [->|Hn].
  - destruct (split_all c s) as [|p ps] eqn:E; [exfalso; eapply split_all_nonnil; exact E|].
    change (join [c] ([] :: p :: ps)) with (c :: join [c] (p :: ps)). rewrite IH. reflexivity.
  - destruct (split_all c s) as [|p ps] eqn:E; [exfalso; eapply split_all_nonnil; exact E|].
    rewrite <- IH. destruct ps; reflexivity.
Qed.
Lemma split_all_no c s : forall p, In p (split_all c s) -> ~ In c p.
Proof.
  induction s as [|x s IH]; simpl; intros p Hp.
  - destruct Hp as [<-|[]]; intros [].
  - destruct (N.eqb_spec x c) as [->|Hn].
    + destruct Hp as [<-|Hp]; [intros [] | apply IH; exact Hp].
    + destruct (split_all c s) as [|q qs].
      * destruct Hp as [<-|[]]. intros [?|[]]; congruence.
      * destruct Hp as [<-|Hp].
        -- intros [?|Hi]; [congruence|]. exact (IH q (or_introl eq_refl) Hi).
        -- apply IH; right; exact Hp.
Qed.

(** ** Dictionaries *)
Section Dict.
  Context {V : Type}.
  Implicit Types (d : dict V) (k : pystr) (v : V).
  Lemma dget_dset_same k v d : dget k (dset k v d) = Some v.
  Proof.
    induction d as [|[k' v'] d IH]; simpl.
    - rewrite str_eqb_refl; reflexivity.
    - destruct (str_eqb k k') eqn:E; simpl; rewrite E; [reflexivity | exact IH].
  Qed.
  Lemma dget_dset_other k k' v d : k <> k' -> dget k (dset k' v d) = dget k d.
  Proof.
    intros Hn; induction d as [|[k2 v2] d IH]; simpl.
    - destruct (str_eqb_spec k k'); [contradiction | reflexivity].
    - destruct (str_eqb_spec k' k2) as [->|H2]; simpl.
      + destruct (str_eqb_spec k k2); [contradiction | reflexivity].
      + destruct (str_eqb k k2); [reflexivity | exact IH].
  Qed.
  Lemma dget_dset k k' v d : dget k (dset k' v d) = if str_eqb k k' then Some v else dget k d.
  Proof.
    destruct (str_eqb_spec k k') as [->|H]; [apply dget_dset_same | apply dget_dset_other; exact H].
  Qed.
  Lemma dget_ddel_same k d : dget k (ddel k d) = None.
  Proof.
    induction d as [|[k' v'] d IH]; simpl; [reflexivity|].
    destruct (str_eqb k k') eqn:E; simpl; [exact IH | rewrite E; exact IH].
  Qed.
  Lemma dget_ddel_other k k' d : k <> k' -> dget k (ddel k' d) = dget k d.
  Proof.
    intros Hn; induction d as [|[k2 v2] d IH]; simpl; [reflexivity|].
    destruct (str_eqb_spec k' k2) as [->|H2]; simpl.
    - destruct (str_eqb_spec k k2); [contradiction | exact IH].
    - destruct (str_eqb k k2); [reflexivity | exact IH].
  Qed.
  Lemma dget_ddel k k' d : dget k (ddel k' d) = if str_eqb k k' then None else dget k d.
  Proof.
    destruct (str_eqb_spec k k') as [->|H]; [apply dget_ddel_same | apply dget_ddel_other; exact H].
  Qed.
  Lemma dget_In k v d : dget k d = Some v -> In (k, v) d.
  Proof.
    induction d as [|[k' v'] d IH]; simpl; [discriminate|].
    destruct (str_eqb_spec k k') as [->|_]; [intros H; injection H as ->; left; reflexivity | right; auto].
  Qed.
  Lemma dget_None k d : dget k d = None <-> ~ In k (dkeys d).
  Proof.
    induction d as [|[k' v'] d IH]; simpl; [tauto|].
    destruct (str_eqb_spec k k') as [->|Hn]; [split; [discriminate | tauto]|].
    rewrite IH. split; [intros H [?|?]; [congruence | tauto] | tauto].
  Qed.
  Lemma In_dget k v d : NoDup (dkeys d) -> In (k, v) d -> dget k d = Some v.
  Proof.
    induction d as [|[k' v'] d IH]; simpl; intros Hd Hi; [contradiction|].
    inversion Hd as [|? ? Hn Hd']; subst. destruct Hi as [Hi|Hi].
    - injection Hi as -> ->. rewrite str_eqb_refl; reflexivity.
    - destruct (str_eqb_spec k k') as [->|_]; [|apply IH; assumption].
      exfalso; apply Hn. change k' with (fst (k', v)). apply in_map; exact Hi.
  Qed.
  Lemma dmem_In k d : dmem k d = true <-> In k (dkeys d).
  Proof.
    unfold dmem. destruct (dget k d) as [v|] eqn:E.
    - split; [|reflexivity]. intros _. change k with (fst (k, v)). apply in_map, dget_In; exact E.
    - split; [discriminate|]. intros H. apply dget_None in E. contradiction.
  Qed.
  Lemma dkeys_dset k v d : dkeys (dset k v d) = if dmem k d then dkeys d else dkeys d ++ [k].
  Proof.
    unfold dmem. induction d as [|[k' v'] d IH]; simpl; [reflexivity|].
    destruct (str_eqb_spec k k') as [->|Hn]; simpl; [reflexivity|].
    rewrite IH. destruct (dget k d); reflexivity.
  Qed.
  Lemma NoDup_dset k v d : NoDup (dkeys d) -> NoDup (dkeys (dset k v d)).
  Proof.
    intros H. rewrite dkeys_dset. destruct (dmem k d) eqn:E; [exact H|].
    assert (Hn : ~ In k (dkeys d)) by (rewrite <- dmem_In; congruence).
    apply NoDup_rev in H. rewrite <- (rev_involutive (dkeys d ++ [k])). apply NoDup_rev.
    rewrite rev_app_distr; simpl. constructor; [rewrite <- in_rev; exact Hn | exact H].
  Qed.
  Lemma NoDup_ddel k d : NoDup (dkeys d) -> NoDup (dkeys (ddel k d)).
  Proof.
    induction d as [|[k' v'] d IH]; simpl; intros H; [exact H|].
    inversion H as [|? ? Hn Hd]; subst. destruct (negb (str_eqb k k')); simpl; [|apply IH; exact Hd].
    constructor; [|apply IH; exact Hd].
    intros Hi; apply Hn. unfold dkeys, ddel in Hi. apply in_map_iff in Hi as [[k2 v2] [He Hi]].
    apply filter_In in Hi as [Hi _]. simpl in He; subst. change k' with (fst (k', v2)). apply in_map; exact Hi.
  Qed.
  Lemma In_dkeys_dset k k' v d : In k (dkeys (dset k' v d)) <-> k = k' \/ In k (dkeys d).
  Proof.
    rewrite <- !dmem_In. unfold dmem. rewrite dget_dset.
    destruct (str_eqb_spec k k') as [->|H]; [tauto|]. destruct (dget k d); intuition congruence.
  Qed.
  Lemma In_dkeys_ddel k k' d : In k (dkeys (ddel k' d)) <-> k <> k' /\ In k (dkeys d).
  Proof.
    rewrite <- !dmem_In. unfold dmem. rewrite dget_ddel.
    destruct (str_eqb_spec k k') as [->|H]; [intuition congruence|]. destruct (dget k d); intuition congruence.
  Qed.
End Dict.

(** ** Decimal digits *)
Lemma digits_aux_acc f n acc : digits_aux f n acc = digits_aux f n [] ++ acc.
Proof.
  revert n acc; induction f as [|f IH]; intros n acc; simpl; [reflexivity|].
  destruct (N.ltb n 10); [reflexivity|].
  rewrite IH, (IH _ [_]), <- app_assoc. reflexivity.
Qed.
Definition dval (acc : N) (s : pystr) : N := fold_left (fun a c => 10 * a + (c - 48))%N s acc.

Lemma dval_app acc s t : dval acc (s ++ t) = dval (dval acc s) t.
Proof. unfold dval. rewrite fold_left_app. reflexivity. Qed.

Lemma N_of_digits_acc_dval acc s :
  forallb is_digit s = true -> N_of_digits_acc acc s = Some (dval acc s).
Proof.
  revert acc; induction s as [|c s IH]; intros acc; simpl; [reflexivity|].
  intros H; apply andb_true_iff in H as [H1 H2]. rewrite H1. apply IH; exact H2.
Qed.
Lemma is_digit_digit_char d : (d < 10)%N -> is_digit (digit_char d) = true.
Proof. intros H. unfold is_digit, digit_char. apply andb_true_iff; rewrite !N.leb_le; lia. Qed.

Lemma pow2_size_bound n : (n < 2 ^ N.size n)%N.
Proof. apply N.size_gt. Qed.

Lemma digits_aux_spec f n :
  (n < 10 ^ N.of_nat f)%N -> (0 < f)%nat ->
  dval 0 (digits_aux f n []) = n /\ forallb is_digit (digits_aux f n []) = true
  /\ (List.length (digits_aux f n []) = 1%nat /\ (n < 10)%N \/
      exists k, List.length (digits_aux f n []) = S k /\ (10 ^ N.of_nat k <= n < 10 ^ N.of_nat (S k))%N).
Proof.
  revert n; induction f as [|f IH]; intros n Hn Hf; [lia|].
  cbn [digits_aux]. destruct (N.ltb_spec n 10) as [Hlt|Hge].
  - rewrite N.mod_small by exact Hlt. split; [|split].
    + unfold dval; cbn. unfold digit_char. lia.
    + cbn. rewrite is_digit_digit_char by exact Hlt. reflexivity.
    + left; split; [reflexivity | exact Hlt].
  - rewrite digits_aux_acc.
    assert (Hf' : (0 < f)%nat).
    { destruct f; [|lia]. change (10 ^ N.of_nat 1)%N with 10%N in Hn. lia. }
    assert (Hdiv : (n / 10 < 10 ^ N.of_nat f)%N).
    { apply N.div_lt_upper_bound; [lia|]. rewrite <- N.pow_succ_r', <- Nat2N.inj_succ. exact Hn. }
    destruct (IH (n / 10)%N Hdiv Hf') as (H1 & H2 & H3).
    pose proof (N.mod_lt n 10 ltac:(lia)) as Hm.
    split; [|split].
    + rewrite dval_app, H1. unfold dval; cbn [fold_left]. unfold digit_char.
      pose proof (N.div_mod n 10 ltac:(lia)). lia.
    + rewrite forallb_app, H2. cbn. rewrite is_digit_digit_char by exact Hm. reflexivity.
    + right. rewrite app_length; cbn [List.length].
      pose proof (N.div_mod n 10 ltac:(lia)) as Hdm.
      destruct H3 as [[Hl Hb]|[k [Hl Hb]]]; rewrite Hl.
      * exists 1%nat. split; [reflexivity|]. change (10 ^ N.of_nat 1)%N with 10%N; change (10 ^ N.of_nat 2)%N with 100%N. lia.
      * exists (S k). split; [lia|].
        rewrite !Nat2N.inj_succ, !N.pow_succ_r' in *. lia.
Qed.
Lemma str_of_N_fuel n : (n < 10 ^ N.of_nat (S (N.to_nat (N.size n))))%N.
Proof.
  eapply N.lt_le_trans; [apply pow2_size_bound|].
  rewrite Nat2N.inj_succ, N2Nat.id.
  transitivity (10 ^ N.size n)%N.
  - apply N.pow_le_mono_l; lia.
  - apply N.pow_le_mono_r; lia.
Qed.
Lemma dval_str_of_N n : dval 0 (str_of_N n) = n.
Proof. unfold str_of_N. apply (digits_aux_spec _ n (str_of_N_fuel n) ltac:(lia)). Qed.
Lemma digits_str_of_N n : forallb is_digit (str_of_N n) = true.
Proof. unfold str_of_N. apply (digits_aux_spec _ n (str_of_N_fuel n) ltac:(lia)). Qed.
Lemma length_str_of_N n :
  (ndigits n = 1%nat /\ (n < 10)%N) \/
  exists k, ndigits n = S k /\ (10 ^ N.of_nat k <= n < 10 ^ N.of_nat (S k))%N.
Proof. unfold ndigits, str_of_N. apply (digits_aux_spec _ n (str_of_N_fuel n) ltac:(lia)). Qed.
Lemma str_of_N_nonnil n : str_of_N n <> [].
Proof.
  pose proof (length_str_of_N n) as H. unfold ndigits in H. intros E; rewrite E in H; cbn in H.
  destruct H as [[H _]|[k [H _]]]; discriminate.
Qed.
Lemma N_of_digits_str_of_N n : N_of_digits (str_of_N n) = Some n.
Proof.
  unfold N_of_digits. destruct (str_of_N n) eqn:E; [exfalso; eapply str_of_N_nonnil; exact E|].
  rewrite <- E. rewrite N_of_digits_acc_dval by apply digits_str_of_N. rewrite dval_str_of_N. reflexivity.
Qed.
Lemma str_of_N_inj a b : str_of_N a = str_of_N b -> a = b.
Proof. intros H. rewrite <- (dval_str_of_N a), <- (dval_str_of_N b), H. reflexivity. Qed.

(** ndigits characterised by powers of ten *)
Lemma ndigits_pos n : (0 < ndigits n)%nat.
Proof. destruct (length_str_of_N n) as [[-> _]|[k [-> _]]]; lia. Qed.
Lemma ndigits_le n k : (0 < k)%nat -> ((ndigits n <= k)%nat <-> (n < 10 ^ N.of_nat k)%N).
Proof.
  intros Hk. destruct (length_str_of_N n) as [[-> H]|[j [-> H]]].
  - split; [|lia]. intros _. eapply N.lt_le_trans; [exact H|].
    change 10%N with (10 ^ 1)%N at 1. apply N.pow_le_mono_r; lia.
  - split; intros H1.
    + eapply N.lt_le_trans; [apply H|]. apply N.pow_le_mono_r; lia.
    + destruct (Nat.le_gt_cases (S j) k) as [|Hg]; [assumption|exfalso].
      assert (10 ^ N.of_nat k <= 10 ^ N.of_nat j)%N by (apply N.pow_le_mono_r; lia). lia.
Qed.
Lemma ndigits_lt n : (n < 10 ^ N.of_nat (ndigits n))%N.
Proof. apply ndigits_le; [apply ndigits_pos | lia]. Qed.
Lemma ndigits_ge n : (0 < n)%N -> (10 ^ (N.of_nat (ndigits n) - 1) <= n)%N.
Proof.
  intros Hn. destruct (length_str_of_N n) as [[-> H]|[j [-> H]]].
  - change (10 ^ (N.of_nat 1 - 1))%N with 1%N. lia.
  - replace (N.of_nat (S j) - 1)%N with (N.of_nat j) by lia. lia.
Qed.
Lemma ndigits_unique n k : (0 < n)%N -> (10 ^ N.of_nat k <= n < 10 ^ N.of_nat (S k))%N -> ndigits n = S k.
Proof.
  intros Hn [H1 H2]. apply Nat.le_antisymm.
  - apply ndigits_le; [lia | exact H2].
  - destruct (Nat.le_gt_cases (S k) (ndigits n)) as [|Hg]; [assumption|exfalso].
    assert (ndigits n <= k)%nat by lia. destruct k as [|k].
    + pose proof (ndigits_pos n). lia.
    + apply ndigits_le in H; [lia | lia].
Qed.

(** [str(z)] is injective and never contains a delimiter *)
Lemma str_of_N_chars n c : In c (str_of_N n) -> is_digit c = true.
Proof.
  intros H. pose proof (digits_str_of_N n) as D. rewrite forallb_forall in D. apply D; exact H.
Qed.
Lemma str_of_Z_inj a b : str_of_Z a = str_of_Z b -> a = b.
Proof.
  assert (X : forall n p, str_of_N n <> ch "-" :: p).
  { intros n p E. assert (is_digit (ch "-") = true) as D; [|discriminate D].
    apply (str_of_N_chars n). rewrite E; left; reflexivity. }
  destruct a as [|a|a], b as [|b|b]; unfold str_of_Z; intros H;
    try (exfalso; eapply X; (exact H || (symmetry; exact H)));
    try (apply str_of_N_inj in H; cbn in H; try discriminate; try congruence).
  - injection H as H. apply str_of_N_inj in H. congruence.
Qed.
