(** * C18 (power), C84 (getrandbits), C85 (round), C86 (threads) *)
From Verif Require Import Model.Base Model.Dec Model.DecMore Spec.DecSpec.
From Verif Require Import Proofs.BaseFacts Proofs.DecFacts Proofs.DecOps.
Local Open Scope Z_scope.

(** ** C18: also what the power operator returns is a contract decimal *)
Theorem C18_pow raw d : cd_pow raw = Ok d -> constructed d /\ exists n, has_units d n /\ - LIMU < n <= MAXU.
Proof.
  unfold cd_pow. destruct raw as [x|e]; cbn [bindr]; [|discriminate]. destruct (fix_precision x) as [y|e]; cbn [bindr]; [|discriminate].
  intros H. assert (C : constructed d) by (apply (c_dec (DFin y)), H). split; [exact C|].
  destruct (constructed_wf d C) as (n & H1 & H2 & _). exists n. split; assumption.
Qed.
(** and it is the exact power, rounded down and clamped, if libmpdec's power is exact *)
Theorem C18_pow_exact x : agrees (cd_pow (Ok (DFin x))) (store (floor_units x)).
Proof. apply stores_agrees. unfold cd_pow. cbn [bindr]. apply fixed_twice. Qed.

(** ** C85: round *)
(** [z] is the whole number next to [n] units; of two equally near ones the even one *)
Definition nearest_whole (n z : Z) : Prop :=
  2 * Z.abs (n - z * ONE) < ONE \/ (2 * Z.abs (n - z * ONE) = ONE /\ Z.even z = true).
Lemma nearest_unique n z z' : nearest_whole n z -> nearest_whole n z' -> z = z'.
Proof.
  unfold nearest_whole, ONE. intros [H|[H E]] [H'|[H' E']]; try lia.
  assert (D : z = z' \/ z = z' + 1 \/ z' = z + 1) by lia. destruct D as [->|[->| ->]]; [reflexivity|..].
  - rewrite Z.add_1_r, Z.even_succ, <- Z.negb_even, E' in E. discriminate.
  - rewrite Z.add_1_r, Z.even_succ, <- Z.negb_even, E in E'. discriminate.
Qed.
Lemma scaled_nearest s j q : 0 < j <= 30 ->
  (2 * (s mod 10 ^ j) < 10 ^ j -> nearest_whole (s * 10 ^ (30 - j)) (s / 10 ^ j)) /\
  (10 ^ j < 2 * (s mod 10 ^ j) -> nearest_whole (s * 10 ^ (30 - j)) (s / 10 ^ j + 1)) /\
  (2 * (s mod 10 ^ j) = 10 ^ j -> (q = s / 10 ^ j \/ q = s / 10 ^ j + 1) -> Z.even q = true -> nearest_whole (s * 10 ^ (30 - j)) q).
Proof.
  intros J. assert (P : 0 < 10 ^ j) by (apply p10_pos; lia). assert (Q : 0 < 10 ^ (30 - j)) by (apply p10_pos; lia).
  assert (O : ONE = 10 ^ j * 10 ^ (30 - j)) by (unfold ONE; rewrite <- p10_add by lia; f_equal; lia).
  pose proof (Z.div_mod s (10 ^ j) ltac:(lia)) as D. pose proof (Z.mod_pos_bound s (10 ^ j) P) as B.
  set (a := s / 10 ^ j) in *. set (r := s mod 10 ^ j) in *. set (p := 10 ^ j) in *. set (m := 10 ^ (30 - j)) in *.
  assert (E0 : s * m - a * ONE = r * m) by (rewrite O, D; ring).
  assert (E1 : s * m - (a + 1) * ONE = - ((p - r) * m)) by (rewrite O, D; ring).
  unfold nearest_whole. repeat split.
  - intros H. left. rewrite E0, O. rewrite Z.abs_eq by nia. nia.
  - intros H. left. rewrite E1, O. rewrite Z.abs_opp, Z.abs_eq by nia. nia.
  - intros H [->| ->] EV; right; (split; [|exact EV]); [rewrite E0|rewrite E1, Z.abs_opp]; rewrite O, Z.abs_eq by nia; nia.
Qed.
(** round(x) is the nearest whole number, half to even *)
Theorem C85_whole a n z : has_units a n -> (cd_round_int a = z <-> nearest_whole n z).
Proof.
  intros U. apply has_units_scoef in U as [G ->].
  enough (N : nearest_whole (scoef a * 10 ^ (fexp a + 30)) (cd_round_int a)).
  { split; [intros <-; exact N|]. intros N'. eapply nearest_unique; eassumption. }
  unfold cd_round_int. destruct (Z.leb_spec 0 (fexp a)) as [H|H].
  - rewrite pow10_Z by lia. left. unfold ONE. rewrite p10_add by lia. replace (scoef a * (10 ^ fexp a * 10 ^ 30) - scoef a * 10 ^ fexp a * 10 ^ 30) with 0 by ring. reflexivity.
  - rewrite pow10_Z by lia. cbv zeta.
    set (q := if Z.even (scoef a / 10 ^ (- fexp a)) then scoef a / 10 ^ (- fexp a) else scoef a / 10 ^ (- fexp a) + 1).
    destruct (scaled_nearest (scoef a) (- fexp a) q ltac:(lia)) as (N1 & N2 & N3). replace (30 - - fexp a) with (fexp a + 30) in * by lia.
    destruct (Z.ltb_spec (2 * (scoef a mod 10 ^ (- fexp a))) (10 ^ (- fexp a))); [apply N1; assumption|].
    destruct (Z.ltb_spec (10 ^ (- fexp a)) (2 * (scoef a mod 10 ^ (- fexp a)))); [apply N2; assumption|].
    fold q. apply N3; [lia| |].
    + unfold q. destruct (Z.even _); auto.
    + unfold q. destruct (Z.even (scoef a / 10 ^ (- fexp a))) eqn:E; [exact E|]. rewrite Z.add_1_r, Z.even_succ, <- Z.negb_even, E. reflexivity.
Qed.
(** z is the whole part of n units: between zero and n, and less than one away from it *)
Definition whole_part (n z : Z) : Prop :=
  (0 <= n -> z * ONE <= n < z * ONE + ONE) /\ (n <= 0 -> z * ONE - ONE < n <= z * ONE).
(** int(x) is the whole part of x: rounded toward zero, for every decimal *)
Theorem C85_int a n z : has_units a n -> (cd_int a = z <-> whole_part n z).
Proof.
  intros U. apply has_units_scoef in U as [G ->].
  assert (O1 : 0 < ONE) by (unfold ONE; lia).
  enough (N : whole_part (scoef a * 10 ^ (fexp a + 30)) (cd_int a)).
  { split; [intros <-; exact N|]. intros [A' B']. destruct N as [A B]. set (n := scoef a * 10 ^ (fexp a + 30)) in *.
    destruct (Z.le_ge_cases 0 n) as [H|H]; [specialize (A H); specialize (A' H)|specialize (B H); specialize (B' H)]; nia. }
  unfold cd_int. destruct (Z.leb_spec 0 (fexp a)) as [H|H].
  - rewrite pow10_Z by lia. rewrite p10_add by lia. unfold whole_part. replace (scoef a * (10 ^ fexp a * 10 ^ 30)) with (scoef a * 10 ^ fexp a * ONE) by (unfold ONE; ring). split; intros; lia.
  - rewrite pow10_Z by lia. set (j := - fexp a). replace (fexp a + 30) with (30 - j) by (unfold j; lia).
    assert (O : ONE = 10 ^ j * 10 ^ (30 - j)) by (unfold ONE; rewrite <- p10_add by (unfold j; lia); f_equal; lia).
    assert (P : 0 < 10 ^ j) by (apply Z.pow_pos_nonneg; unfold j; lia). assert (M : 0 < 10 ^ (30 - j)) by (apply Z.pow_pos_nonneg; unfold j; lia).
    pose proof (Z.quot_rem' (scoef a) (10 ^ j)) as D. set (q := Z.quot (scoef a) (10 ^ j)) in *. set (r := Z.rem (scoef a) (10 ^ j)) in *.
    unfold whole_part. rewrite O. split; intros S.
    + assert (S' : 0 <= scoef a) by nia. pose proof (Z.rem_bound_pos (scoef a) (10 ^ j) S' P) as B. fold r in B. rewrite D at 1 2. nia.
    + assert (S' : scoef a <= 0) by nia. pose proof (Z.rem_bound_pos_neg (scoef a) (10 ^ j) P S') as B. fold r in B. nia.
Qed.
Example C85_int_case : exists a n, has_units a n /\ n < 0 /\ cd_int a = -2.
Proof. exists (mkfd true 27 (-1)), (-27 * 10 ^ 29). split; [split; [cbn; lia|reflexivity]|]. split; [lia|reflexivity]. Qed.

Lemma rescale_units d n e : has_units d n -> -30 <= e -> fcoef d <> 0%N -> fexp (rescale d e) = e /\ scoef (rescale d e) = n / 10 ^ (e + 30).
Proof.
  intros U He Hz. apply has_units_scoef in U as [G ->]. destruct (Z.leb_spec e (fexp d)) as [H|H].
  - unfold rescale. apply is_zero_false in Hz. rewrite Hz. rewrite (proj2 (Z.leb_le _ _)) by exact H. split; [reflexivity|].
    replace (fexp d + 30) with ((fexp d - e) + (e + 30)) by lia. rewrite p10_add, Z.mul_assoc, Z.div_mul by (try lia; pose proof (p10_pos (e + 30)); lia).
    unfold scoef. cbn [fneg fcoef]. rewrite N2Z.inj_mul, pow10_Z by lia. destruct (fneg d); ring.
  - destruct (rescale_up d e H Hz) as (_ & E & ->). split; [exact E|].
    replace (e + 30) with ((e - fexp d) + (fexp d + 30)) by lia. rewrite (p10_add (e - fexp d)) by lia.
    rewrite Z.div_mul_cancel_r; [reflexivity| |]; [pose proof (p10_pos (e - fexp d))|pose proof (p10_pos (fexp d + 30))]; lia.
Qed.
Lemma floor_div_abs n p : 0 < p -> Z.abs (n / p) <= Z.abs n.
Proof. intros P. pose proof (Z.div_mod n p ltac:(lia)). pose proof (Z.mod_pos_bound n p P). nia. Qed.
Lemma floor_div_big n p : 0 < p -> Z.abs n < p -> Z.abs (n / p) <= 1.
Proof. intros P H. pose proof (Z.div_mod n p ltac:(lia)). pose proof (Z.mod_pos_bound n p P). nia. Qed.
(** round(x, k) rounds down to k digits after the point, for every k from -100 to 30 *)
Theorem C85_digits_partial a n k : constructed a -> has_units a n -> -100 <= k <= 30 ->
  exists r, cd_round a k = Ok r /\ has_units r (n / 10 ^ (30 - k) * 10 ^ (30 - k)).
Proof.
  intros C U K. destruct (constructed_wf a C) as (n' & U' & R & _). pose proof (has_units_inj _ _ _ U U') as <-. clear U'.
  unfold cd_round, EMAX, ETINY. destruct (Z.ltb_spec 100 (- k)); [lia|]. destruct (Z.ltb_spec (- k) (-159)); [lia|]. cbn [orb].
  assert (P : 0 < 10 ^ (30 - k)) by (apply p10_pos; lia). unfold quantize, EMAX, PREC. destruct (is_zero a) eqn:Z0.
  - apply is_zero_spec in Z0. assert (n = 0) as ->.
    { apply has_units_scoef in U as [_ ->]. unfold scoef. rewrite Z0. destruct (fneg a); reflexivity. }
    rewrite fix_ctx_id; [|vm_compute; discriminate|cbn [fexp]; lia|cbn [fexp]; change (flen _) with 1; lia|cbn [fexp]; lia].
    eexists; split; [reflexivity|]. unfold has_units; cbn [fneg fcoef fexp]. split; [lia|]. rewrite Z.div_0_l by lia. destruct (fneg a); reflexivity.
  - apply is_zero_false in Z0. pose proof (flen_bounds a Z0) as FB. pose proof (flen_pos a) as FP.
    assert (S : flen a + fexp a <= 30).
    { apply has_units_scoef in U as [G E]. destruct (Z.leb_spec (flen a + fexp a) 30) as [|Q]; [assumption|exfalso].
      assert (10 ^ 60 <= Z.abs n).
      { rewrite E, Z.abs_mul, (Z.abs_eq (10 ^ _)) by (pose proof (p10_pos (fexp a + 30)); lia).
        transitivity (10 ^ (flen a - 1) * 10 ^ (fexp a + 30)); [rewrite <- p10_add by lia; apply p10_le; lia|].
        apply Z.mul_le_mono_nonneg_r; [pose proof (p10_pos (fexp a + 30)); lia|]. unfold scoef. destruct (fneg a); lia. }
      unfold LIMU, MAXU in R. lia. }
    unfold adjusted at 1 2. destruct (Z.ltb_spec 100 (fexp a + flen a - 1)); [lia|]. destruct (Z.ltb_spec 60 (fexp a + flen a - 1 - - k + 1)); [lia|].
    destruct (rescale_units a n (- k) U ltac:(lia) Z0) as [E1 E2]. replace (- k + 30) with (30 - k) in E2 by lia.
    set (r := rescale a (- k)) in *.
    assert (A : Z.abs n < 10 ^ 60) by (unfold LIMU, MAXU in R; lia).
    assert (L : flen r <= 60) by (apply flen_lt; [lia|]; rewrite E2; eapply Z.le_lt_trans; [apply floor_div_abs, P|exact A]).
    assert (L2 : flen r - k <= 101).
    { destruct (Z.leb_spec (- k) 41); [lia|]. enough (flen r <= 1) by lia. apply flen_lt; [lia|]. rewrite E2.
      eapply Z.le_lt_trans; [apply floor_div_big; [exact P|]|lia]. eapply Z.lt_le_trans; [exact A|apply p10_le; lia]. }
    unfold adjusted. rewrite E1. destruct (Z.ltb_spec 100 (- k + flen r - 1)); [lia|]. destruct (Z.ltb_spec 60 (flen r)); [lia|].
    rewrite fix_ctx_id by lia. exists r. split; [reflexivity|]. apply has_units_scoef. rewrite E1, E2. split; [lia|]. f_equal. f_equal. lia.
Qed.
(** and raises for exponents out of range *)
Theorem C85_raises a k : k < -100 \/ 159 < k -> cd_round a k = Err EInvalidOperation.
Proof.
  intros H. unfold cd_round, EMAX, ETINY. destruct (Z.ltb_spec 100 (- k)); [reflexivity|]. destruct (Z.ltb_spec (- k) (-159)); [reflexivity|lia].
Qed.
(** REFUTED: round(x, k) is not the nearest number with k digits: round(0.9, 0) is 0, round(-0.1, 0) is -1 *)
Theorem C85_refuted : exists a n r m, constructed a /\ has_units a n /\ cd_round a 0 = Ok r /\ has_units r m /\ 2 * Z.abs (n - m) > ONE.
Proof.
  exists (mkfd false 9 (-1)), (9 * 10 ^ 29), (mkfd false 0 0), 0. split; [apply (c_str (u "0.9")); vm_compute; reflexivity|].
  split; [split; [cbn; lia|reflexivity]|]. split; [vm_compute; reflexivity|]. split; [split; [cbn; lia|reflexivity]|]. unfold ONE. lia.
Qed.
(** REFUTED for C18: what round(x, k) returns is a Decimal without the limits; it can be multiplied beyond them *)
Theorem C18_round_refuted : exists a r s, constructed a /\ cd_round a 0 = Ok r /\ fd_mul r r = Ok s /\ has_units s (10 ^ 88) /\ MAXU < 10 ^ 88.
Proof.
  exists MAX_DECIMAL, (mkfd false (10 ^ 29) 0), (mkfd false (10 ^ 58) 0). split; [apply (c_dec (DInf false)); reflexivity|].
  split; [vm_compute; reflexivity|]. split; [vm_compute; reflexivity|]. split; [split; [cbn; lia|reflexivity]|]. reflexivity.
Qed.
Example C85_some : cd_round_int (mkfd false 25 (-1)) = 2 /\ cd_round_int (mkfd false 35 (-1)) = 4 /\ cd_round_int (mkfd true 25 (-1)) = -2
  /\ cd_round (mkfd false 12345 (-3)) 2 = Ok (mkfd false 1234 (-2)) /\ cd_round (mkfd false 12345 0) (-2) = Ok (mkfd false 123 2).
Proof. vm_compute. repeat split. Qed.

(** ** C86: the thread *)
Lemma floor_scoef d : fcoef d <> 0%N -> fexp (rescale d (-30)) = -30 /\ scoef (rescale d (-30)) = floor_units d.
Proof.
  intros Z0. rewrite floor_units_scoef. destruct (Z.leb_spec (-30) (fexp d)) as [H|H].
  - unfold rescale. apply is_zero_false in Z0. rewrite Z0. rewrite (proj2 (Z.leb_le _ _)) by exact H. split; [reflexivity|].
    unfold scoef. cbn [fneg fcoef]. rewrite N2Z.inj_mul, pow10_Z by lia. replace (fexp d - -30) with (fexp d + 30) by lia. destruct (fneg d); ring.
  - destruct (rescale_up d (-30) H Z0) as (_ & E & ->). split; [exact E|]. f_equal. 
Qed.
Lemma adjusted_floor d : fcoef d <> 0%N -> 28 < adjusted d - -30 + 1 -> 10 ^ 28 <= Z.abs (floor_units d).
Proof.
  intros Z0 H. unfold adjusted in H. pose proof (flen_bounds d Z0) as FB. pose proof (flen_pos d).
  rewrite floor_units_scoef. assert (S : 10 ^ (flen d - 1) <= Z.abs (scoef d)) by (unfold scoef; destruct (fneg d); lia).
  destruct (Z.leb_spec (-30) (fexp d)) as [G|G].
  - rewrite Z.abs_mul, (Z.abs_eq (10 ^ _)) by (pose proof (p10_pos (fexp d + 30)); lia).
    transitivity (10 ^ (flen d - 1) * 10 ^ (fexp d + 30)); [rewrite <- p10_add by lia; apply p10_le; lia|].
    apply Z.mul_le_mono_nonneg_r; [pose proof (p10_pos (fexp d + 30)); lia|exact S].
  - assert (P : 0 < 10 ^ (-30 - fexp d)) by (apply p10_pos; lia).
    assert (S' : 10 ^ 28 * 10 ^ (-30 - fexp d) <= Z.abs (scoef d)) by (rewrite <- p10_add by lia; transitivity (10 ^ (flen d - 1)); [apply p10_le; lia|exact S]).
    set (p := 10 ^ (-30 - fexp d)) in *. destruct (Z.leb_spec 0 (scoef d)).
    + rewrite Z.abs_eq in S' by assumption. assert (10 ^ 28 <= scoef d / p) by (apply Z.div_le_lower_bound; lia). lia.
    + assert (scoef d / p <= - 10 ^ 28) by (apply Z.div_le_upper_bound; lia). lia.
Qed.
Lemma quantize_default_spec d : 
  (10 ^ 28 <= Z.abs (floor_units d) -> quantize_default d (-30) = Err EInvalidOperation) /\
  (Z.abs (floor_units d) < 10 ^ 28 -> quantize_default d (-30) = quantize d (-30)).
Proof.
  unfold quantize_default, quantize, DEFAULT_PREC, EMAX, PREC. destruct (is_zero d) eqn:Z0.
  - apply is_zero_spec in Z0. rewrite floor_units_zero by exact Z0. split; [intros H; vm_compute in H; contradiction|]. intros _.
    symmetry. apply fix_ctx_id; cbn [fexp]; try lia; change (flen _) with 1; lia.
  - apply is_zero_false in Z0. destruct (floor_scoef d Z0) as [E1 E2].
    assert (L : flen (rescale d (-30)) <= 28 <-> Z.abs (floor_units d) < 10 ^ 28).
    { rewrite <- E2. split; [|intros H; apply flen_lt; [lia|exact H]]. intros H. unfold flen in H. apply ndigits_le_Z in H; [|lia]. unfold scoef. destruct (fneg _); lia. }
    split; intros H.
    + destruct (Z.ltb_spec 28 (adjusted d - -30 + 1)); [reflexivity|]. cbv zeta. destruct (Z.ltb_spec 28 (flen (rescale d (-30)))); [reflexivity|]. lia.
    + destruct (Z.ltb_spec 28 (adjusted d - -30 + 1)) as [Q|Q]; [apply adjusted_floor in Q; [lia|exact Z0]|]. cbv zeta.
      apply L in H. destruct (Z.ltb_spec 28 (flen (rescale d (-30)))); [lia|].
      destruct (Z.ltb_spec 100 (adjusted d)); [lia|]. destruct (Z.ltb_spec 60 (adjusted d - -30 + 1)); [lia|].
      unfold adjusted. rewrite E1. destruct (Z.ltb_spec 100 (-30 + flen (rescale d (-30)) - 1)); [lia|]. destruct (Z.ltb_spec 60 (flen (rescale d (-30)))); [lia|].
      symmetry. apply fix_ctx_id; lia.
Qed.
(** Values below 0.01 convert in every thread alike ... *)
Theorem C86_small_partial s d : dec_of_str (neg_sci_not s) = Ok (DFin d) -> Z.abs (floor_units d) < 10 ^ 28 -> cd_of_str_default s = cd_of_str s.
Proof.
  intros E H. unfold cd_of_str_default, cd_of_str. rewrite E. cbn [bindr fix_precision_default fix_precision].
  destruct (fd_ltb MAX_DECIMAL d); [reflexivity|]. unfold MIN_EXP. rewrite (proj2 (quantize_default_spec d) H).
  destruct (quantize d (-30)) as [q|e] eqn:Q; cbn [bindr]; [|reflexivity].
  assert (F : fix_ctx q = Ok q).
  { rewrite <- (proj2 (quantize_default_spec d) H) in Q. unfold quantize_default, DEFAULT_PREC in Q. destruct (is_zero d) eqn:Z0.
    - injection Q as <-. apply fix_ctx_id; cbn [fexp]; try lia; change (flen _) with 1; lia.
    - destruct (Z.ltb _ _); [discriminate|]. cbv zeta in Q. destruct (Z.ltb_spec 28 (flen (rescale d (-30)))) as [|L]; [discriminate|]. injection Q as <-.
      apply is_zero_false in Z0. destruct (floor_scoef d Z0) as [E1 _]. apply fix_ctx_id; lia. }
  unfold normalize, normalize_default. rewrite F. cbn [bindr]. destruct (is_zero q); [reflexivity|]. destruct (strip_zeros _ _ _). reflexivity.
Qed.
(** ... REFUTED for all others: in a thread other than the one that imported the module every decimal from 0.01 to the maximum raises InvalidOperation,
    while it converts in the first *)
Theorem C86_refuted s d : dec_of_str (neg_sci_not s) = Ok (DFin d) -> 10 ^ 28 <= Z.abs (floor_units d) -> - LIMU < floor_units d < MAXU ->
  cd_of_str_default s = Err EInvalidOperation /\ exists c, cd_of_str s = Ok c /\ has_units c (floor_units d).
Proof.
  intros E H R. unfold cd_of_str_default, cd_of_str. rewrite E. cbn [bindr]. pose proof (fix_precision_spec d) as S.
  rewrite store_range in S by lia. destruct S as (c & F & U & _). split; [|exists c; split; assumption].
  cbn [fix_precision_default]. destruct (fd_ltb MAX_DECIMAL d) eqn:M.
  - exfalso. unfold fix_precision in F. rewrite M in F. injection F as <-. pose proof (has_units_inj _ _ _ U MAX_has_units). lia.
  - unfold MIN_EXP. rewrite (proj1 (quantize_default_spec d) H). reflexivity.
Qed.
Example C86_some : cd_of_str_default (u "1") = Err EInvalidOperation /\ cd_of_str (u "1") = Ok (mkfd false 1 0) /\ cd_of_str_default (u "0.001") = Ok (mkfd false 1 (-3)).
Proof. vm_compute. repeat split. Qed.

(** ** C84: getrandbits *)
Lemma bits_value_app l b : bits_value (l ++ [b]) = 2 * bits_value l + (if b then 1 else 0).
Proof. unfold bits_value. rewrite fold_left_app. reflexivity. Qed.
Lemma bits_value_spec draw n v : bits_value (map draw (seq 0 n)) = v <-> 0 <= v < 2 ^ Z.of_nat n /\ forall i, (i < n)%nat -> draw i = Z.testbit v (Z.of_nat (n - 1 - i)).
Proof.
  revert v; induction n as [|n IH]; intros v.
  - cbn [seq map]. change (bits_value []) with 0. change (2 ^ Z.of_nat 0) with 1. split; [intros <-; split; [lia|intros i H; lia]|lia].
  - rewrite seq_S, map_app. cbn [map Nat.add]. rewrite bits_value_app. rewrite Nat2Z.inj_succ, Z.pow_succ_r by lia.
    assert (T : forall w (b : bool) j, 0 <= j -> Z.testbit (2 * w + (if b then 1 else 0)) (Z.succ j) = Z.testbit w j).
    { intros w b j J. destruct b; [apply Z.testbit_odd_succ|rewrite Z.add_0_r; apply Z.testbit_even_succ]; exact J. }
    split.
    + intros <-. destruct (proj1 (IH _) eq_refl) as [R B]. split; [destruct (draw n); lia|]. intros i I. destruct (Nat.eq_dec i n) as [->|NE].
      * replace (S n - 1 - n)%nat with 0%nat by lia. change (Z.of_nat 0) with 0. destruct (draw n); [symmetry; apply Z.testbit_odd_0|rewrite Z.add_0_r; symmetry; apply Z.testbit_even_0].
      * rewrite B by lia. replace (Z.of_nat (S n - 1 - i)) with (Z.succ (Z.of_nat (n - 1 - i))) by lia. rewrite T by lia. reflexivity.
    + intros [R B]. pose proof (B n ltac:(lia)) as B0. replace (S n - 1 - n)%nat with 0%nat in B0 by lia. change (Z.of_nat 0) with 0 in B0. rewrite Z.bit0_odd in B0.
      assert (D : v = 2 * (v / 2) + (if draw n then 1 else 0)).
      { rewrite B0. pose proof (Z.div_mod v 2 ltac:(lia)) as D. rewrite Zmod_odd in D. exact D. }
      assert (E : bits_value (map draw (seq 0 n)) = v / 2).
      { apply IH. split; [destruct (draw n); lia|]. intros i I. rewrite (B i) by lia. rewrite D at 1. replace (Z.of_nat (S n - 1 - i)) with (Z.succ (Z.of_nat (n - 1 - i))) by lia. apply T. lia. }
      rewrite E. symmetry. exact D.
Qed.
(** C84: after seed(), for k > 0 the answer is the number below 2^k whose binary digits are the draws; so every such number is the answer for exactly one
    outcome of the k draws *)
Theorem C84_value draw k v : 0 < k ->
  (getrandbits true draw k = Ok v <-> 0 <= v < 2 ^ k /\ forall i, 0 <= i < k -> draw (Z.to_nat i) = Z.testbit v (k - 1 - i)).
Proof.
  intros K. unfold getrandbits. cbn [negb].
  assert (Q : bits_value (map draw (seq 0 (Z.to_nat k))) = v <-> 0 <= v < 2 ^ k /\ forall i, 0 <= i < k -> draw (Z.to_nat i) = Z.testbit v (k - 1 - i)).
  { rewrite bits_value_spec, Z2Nat.id by lia. apply and_iff_compat_l. split; intros H i I.
    - rewrite H by lia. f_equal. lia.
    - specialize (H (Z.of_nat i) ltac:(lia)). rewrite Nat2Z.id in H. rewrite H. f_equal. lia. }
  rewrite <- Q. destruct (map draw (seq 0 (Z.to_nat k))) as [|b l] eqn:E.
  - exfalso. apply (f_equal (@List.length _)) in E. rewrite map_length, seq_length in E. cbn in E. lia.
  - split; congruence.
Qed.
Theorem C84_not_seeded draw k : getrandbits false draw k = Err EAssertion.
Proof. reflexivity. Qed.
(** REFUTED for k = 0: random.getrandbits(0) raises ValueError (Python's own gives 0) *)
Theorem C84_refuted draw k : k <= 0 -> getrandbits true draw k = Err EValue.
Proof. intros K. unfold getrandbits. cbn [negb]. replace (Z.to_nat k) with 0%nat by lia. reflexivity. Qed.
Example C84_some : getrandbits true (fun i => Nat.even i) 4 = Ok 10.
Proof. reflexivity. Qed.
