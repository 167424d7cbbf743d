(** * Contract decimals: properties C18 - C24

    Units: 1 = ONE units of 10^-30, MAXU = 10^29, LIMU = 10^30 (Spec/DecSpec.v). *)
From Verif Require Import Model.Base Model.Dec Spec.DecSpec.
From Verif Require Import Proofs.BaseFacts Proofs.DecFacts Proofs.DecOps Proofs.DecText Proofs.DecFloat.
Local Open Scope Z_scope.

Local Ltac wf := try (apply constructed_wf; assumption).

(** ** C18: every decimal a contract can hold is a whole number of units and in range *)
Theorem C18_on_grid_and_in_range d :
  constructed d -> exists n, has_units d n /\ - LIMU < n <= MAXU.
Proof. intros H. destruct (constructed_wf d H) as (n & H1 & H2 & _). exists n. split; assumption. Qed.
(** non-vacuous: 1.5 is constructed and is 1.5 * 10^30 units *)
Example C18_example : exists d, constructed d /\ has_units d (15 * 10 ^ 29).
Proof.
  eexists. split; [apply (c_str (u "1.5")); vm_compute; reflexivity|]. vm_compute. split; [discriminate | reflexivity].
Qed.

(** ** C19: the operators are exact integer arithmetic on units, rounded down, clamped above *)
Definition div_spec (na nb : Z) : result Z :=
  if nb =? 0 then Err (if na =? 0 then EInvalidOperation else EDivisionByZero)
  else store (na * ONE / nb).

Lemma div_zero a b na nb : has_units a na -> has_units b nb -> nb = 0 ->
  wrap (fd_div a b) = Err (if na =? 0 then EInvalidOperation else EDivisionByZero).
Proof.
  intros Ha Hb ->. unfold fd_div.
  assert (is_zero b = true) as ->.
  { destruct Hb as [H1 H2]. assert (0 < 10 ^ (fexp b + 30)) by (apply p10_pos; lia). unfold is_zero. apply N.eqb_eq. destruct (fneg b); nia. }
  assert (is_zero a = (na =? 0)) as ->; [|destruct (na =? 0); reflexivity].
  destruct Ha as [H1 H2]. assert (0 < 10 ^ (fexp a + 30)) by (apply p10_pos; lia). unfold is_zero.
  destruct (N.eqb_spec (fcoef a) 0) as [E|E], (Z.eqb_spec na 0) as [E2|E2]; try reflexivity; destruct (fneg a); nia.
Qed.

Theorem C19_arithmetic_exact_rounded_down a b na nb :
  constructed a -> constructed b -> has_units a na -> has_units b nb ->
  agrees (cd_add a b) (store (na + nb)) /\
  agrees (cd_sub a b) (store (na - nb)) /\
  agrees (cd_mul a b) (store (na * nb / ONE)) /\
  agrees (cd_div a b) (div_spec na nb) /\
  agrees (cd_neg a) (store (- na)) /\
  agrees (cd_abs a) (store (Z.abs na)).
Proof.
  intros Ha Hb Hna Hnb. repeat split.
  - apply stores_agrees, cd_add_stores; wf; assumption.
  - apply stores_agrees, cd_sub_stores; wf; assumption.
  - apply stores_agrees, cd_mul_stores; wf; assumption.
  - unfold div_spec. destruct (Z.eqb_spec nb 0) as [E|E].
    + unfold cd_div. rewrite (div_zero a b na nb Hna Hnb E). reflexivity.
    + apply stores_agrees, cd_div_stores; wf; assumption.
  - apply stores_agrees, cd_neg_stores; wf; assumption.
  - apply stores_agrees, cd_abs_stores; wf; assumption.
Qed.
(** The same with an int operand (fewer than 4301 digits): the int is first made a decimal. *)
Theorem C19_int_operand a na z nz :
  constructed a -> has_units a na -> Z.of_nat (ndigits (Z.abs_N z)) <= 4300 -> store (z * ONE) = Ok nz ->
  agrees (cd_op_int cd_add a z) (store (na + nz)) /\
  agrees (cd_op_int cd_sub a z) (store (na - nz)) /\
  agrees (cd_op_int cd_mul a z) (store (na * nz / ONE)) /\
  agrees (cd_op_int cd_div a z) (div_spec na nz) /\
  agrees (cd_rop_int cd_sub z a) (store (nz - na)) /\
  agrees (cd_rop_int cd_div z a) (div_spec nz na).
Proof.
  intros Ha Hna Hd Hs. pose proof (cd_of_int_stores z Hd) as S. rewrite Hs in S.
  destruct S as (o & Ho & Hu & Hw). unfold cd_op_int, cd_rop_int, get_other_int. rewrite Ho. cbn [bindr].
  pose proof (c_int z o Ho) as Hc.
  destruct (C19_arithmetic_exact_rounded_down a o na nz Ha Hc Hna Hu) as (H1 & H2 & H3 & H4 & _).
  destruct (C19_arithmetic_exact_rounded_down o a nz na Hc Ha Hu Hna) as (_ & G2 & _ & G4 & _).
  auto 10.
Qed.
(** non-vacuous: 2 / 3 is 0.666...6 rounded down, -2 / 3 is -0.666...7, and 10^29 + 1 is clamped *)
Definition cd (s : string) : fd := match cd_of_str (u s) with Ok d => d | Err _ => mkfd false 0 0 end.
Example C19_example :
  map_result_units (cd_div (cd "2") (cd "3")) = Ok 666666666666666666666666666666 /\
  map_result_units (cd_div (cd "-2") (cd "3")) = Ok (-666666666666666666666666666667) /\
  map_result_units (cd_add (cd "100000000000000000000000000000") (cd "1")) = Ok MAXU /\
  cd_sub (cd "-999999999999999999999999999999") (cd "1") = Err EInvalidOperation /\
  cd_div (cd "1") (cd "0") = Err EDivisionByZero.
Proof. vm_compute. repeat split. Qed.

(** ** C20: conservation *)
(** [x - a] and [y + a], then their sum: equal in value to [x + y] when none of the four
    exact results leaves the range. *)
Theorem C20_transfer_conserves x y a nx ny na :
  constructed x -> constructed y -> constructed a ->
  has_units x nx -> has_units y ny -> has_units a na ->
  - LIMU < nx - na <= MAXU -> - LIMU < ny + na <= MAXU -> - LIMU < nx + ny <= MAXU ->
  exists x' y' s, cd_sub x a = Ok x' /\ cd_add y a = Ok y' /\ cd_add x' y' = Ok s /\
    has_units x' (nx - na) /\ has_units y' (ny + na) /\ has_units s (nx + ny) /\
    exists s', cd_add x y = Ok s' /\ cd_eq s s' = true.
Proof.
  intros Hx Hy Ha Ux Uy Ua R1 R2 R3.
  pose proof (cd_sub_stores x a nx na (constructed_wf _ Hx) (constructed_wf _ Ha) Ux Ua) as S1. rewrite store_range in S1 by lia.
  destruct S1 as (x' & E1 & U1 & W1).
  pose proof (cd_add_stores y a ny na (constructed_wf _ Hy) (constructed_wf _ Ha) Uy Ua) as S2. rewrite store_range in S2 by lia.
  destruct S2 as (y' & E2 & U2 & W2).
  pose proof (cd_add_stores x' y' _ _ W1 W2 U1 U2) as S3. replace (nx - na + (ny + na)) with (nx + ny) in S3 by lia.
  rewrite store_range in S3 by lia. destruct S3 as (s & E3 & U3 & W3).
  pose proof (cd_add_stores x y _ _ (constructed_wf _ Hx) (constructed_wf _ Hy) Ux Uy) as S4.
  rewrite store_range in S4 by lia. destruct S4 as (s' & E4 & U4 & W4).
  exists x', y', s. repeat (split; [assumption|]). exists s'. split; [assumption|].
  unfold cd_eq, fd_eqb. rewrite (compare_units _ _ _ _ U3 U4), Z.compare_refl. reflexivity.
Qed.
Theorem C20_add_then_subtract x a nx na :
  constructed x -> constructed a -> has_units x nx -> has_units a na -> - LIMU < nx + na <= MAXU ->
  exists t r, cd_add x a = Ok t /\ cd_sub t a = Ok r /\ cd_eq r x = true.
Proof.
  intros Hx Ha Ux Ua R.
  pose proof (cd_add_stores x a nx na (constructed_wf _ Hx) (constructed_wf _ Ha) Ux Ua) as S1. rewrite store_range in S1 by lia.
  destruct S1 as (t & E1 & U1 & W1).
  pose proof (cd_sub_stores t a _ na W1 (constructed_wf _ Ha) U1 Ua) as S2. replace (nx + na - na) with nx in S2 by lia.
  destruct (constructed_wf _ Hx) as (n & Un & Rn & _).
  assert (n = nx) as -> by (destruct Un as [_ ->], Ux as [_ ->]; reflexivity).
  rewrite store_range in S2 by lia. destruct S2 as (r & E2 & U2 & W2).
  exists t, r. repeat (split; [assumption|]). unfold cd_eq, fd_eqb. rewrite (compare_units _ _ _ _ U2 Ux), Z.compare_refl. reflexivity.
Qed.
Example C20_example : exists x y a nx ny na,
  constructed x /\ constructed y /\ constructed a /\ has_units x nx /\ has_units y ny /\ has_units a na /\
  0 < na < nx /\ - LIMU < nx - na <= MAXU /\ - LIMU < ny + na <= MAXU /\ - LIMU < nx + ny <= MAXU.
Proof.
  exists (cd "100.5"), (cd "7"), (cd "0.25"), (1005 * 10 ^ 29), (7 * 10 ^ 30), (25 * 10 ^ 28).
  repeat split; try (vm_compute; congruence).
  - apply (c_str (u "100.5")); vm_compute; reflexivity.
  - apply (c_str (u "7")); vm_compute; reflexivity.
  - apply (c_str (u "0.25")); vm_compute; reflexivity.
Qed.
(** Clamping destroys money: a transfer to a full account loses the amount. *)
Theorem C20_clamped_transfer_refuted : exists x y a x' y',
  constructed x /\ constructed y /\ constructed a /\
  cd_sub x a = Ok x' /\ cd_add y a = Ok y' /\ cd_eq y' y = true /\ cd_lt x' x = true.
Proof.
  exists (cd "10"), (cd "100000000000000000000000000000"), (cd "3"), (cd "7"), (cd "1E+29").
  split; [apply (c_str (u "10")); vm_compute; reflexivity|].
  split; [apply (c_str (u "100000000000000000000000000000")); vm_compute; reflexivity|].
  split; [apply (c_str (u "3")); vm_compute; reflexivity|].
  repeat split; vm_compute; reflexivity.
Qed.

(** ** C21: str and back *)
Theorem C21_text_round_trip d n :
  constructed d -> has_units d n ->
  exists d', cd_of_str (cd_str d) = Ok d' /\ has_units d' n /\ cd_eq d' d = true.
Proof.
  intros Hd Hn. destruct (cd_of_str_round_trip true d n (constructed_wf _ Hd) Hn) as (d' & E & U & _).
  exists d'. repeat split; try assumption. apply U. apply U.
  unfold cd_eq, fd_eqb. rewrite (compare_units _ _ _ _ U Hn), Z.compare_refl. reflexivity.
Qed.
Example C21_example : constructed (cd "1E-30") /\ cd_str (cd "1E-30") = u "1E-30" /\ cd_str (cd "1E+28") = u "10E+27".
Proof. split; [apply (c_str (u "1E-30")); vm_compute; reflexivity | split; vm_compute; reflexivity]. Qed.

(** ** C22: numbers to decimals *)
Theorem C22_ints z :
  Z.abs z < 10 ^ 4300 -> agrees (cd_of_int z) (store (z * ONE)).
Proof.
  intros H. apply stores_agrees, cd_of_int_stores.
  destruct (Z.eq_dec z 0) as [->|Hz]; [vm_compute; discriminate|].
  apply ndigits_le_Z; [lia|]. rewrite N2Z.inj_abs_N. exact H.
Qed.
(** every finite float except the negative ones whose repr has a negative exponent *)
Theorem C22_floats f :
  frepr_ok f -> (fr_neg f = false \/ match fr_exp f with Some (true, _) => False | _ => True end) ->
  agrees (cd_of_float (frepr_text f)) (store (floor_units (frepr_value f))).
Proof. intros H1 H2. apply stores_agrees, cd_of_float_stores; assumption. Qed.
(** ... and every one of those raises: ContractingDecimal(-1.5e-07) *)
Theorem C22_small_negative_floats_refuted f :
  frepr_ok f -> fr_neg f = true -> match fr_exp f with Some (true, _) => True | _ => False end ->
  cd_of_float (frepr_text f) = Err EInvalidOperation.
Proof. apply cd_of_float_neg_em. Qed.
(** Texts in scientific notation can also be misread silently. *)
Theorem C22_text_misread_refuted :
  map_result_units (cd_of_str (u "1.5e-0")) = Ok (15 * ONE) /\
  map_result_units (cd_of_str (u ".5e-1")) = Ok (5 * 10 ^ 29) /\
  map_result_units (cd_of_str (u "05e-2")) = Ok (5 * 10 ^ 27).
Proof. vm_compute. repeat split. Qed.
Example C22_example :
  frepr_ok (mkfrepr false (u "1") (u "5") (Some (true, u "07"))) /\
  frepr_text (mkfrepr false (u "1") (u "5") (Some (true, u "07"))) = u "1.5e-07" /\
  map_result_units (cd_of_float (u "1.5e-07")) = Ok (15 * 10 ^ 22) /\
  frepr_ok (mkfrepr true (u "1") (u "5") (Some (true, u "07"))) /\
  cd_of_float (u "-1.5e-07") = Err EInvalidOperation.
Proof. vm_compute. repeat split; try congruence; try lia. Qed.

(** ** C23: order *)
Theorem C23_order a b na nb :
  constructed a -> constructed b -> has_units a na -> has_units b nb ->
  cd_eq a b = (na =? nb) /\ cd_lt a b = (na <? nb) /\ cd_le a b = (na <=? nb) /\
  cd_gt a b = (nb <? na) /\ cd_ge a b = (nb <=? na).
Proof.
  intros _ _ Ha Hb. unfold cd_eq, cd_lt, cd_le, cd_gt, cd_ge, fd_eqb, fd_ltb, fd_leb.
  rewrite (compare_units _ _ _ _ Ha Hb), (compare_units _ _ _ _ Hb Ha).
  rewrite (Z.compare_antisym na nb).
  destruct (Z.compare_spec na nb) as [->|H|H]; cbn [CompOpp]; repeat split; symmetry;
    first [apply Z.eqb_eq; lia | apply Z.eqb_neq; lia | apply Z.ltb_lt; lia | apply Z.ltb_ge; lia | apply Z.leb_le; lia | apply Z.leb_gt; lia].
Qed.
(** with an int z in the representable range *)
Theorem C23_order_int a na z :
  constructed a -> has_units a na -> - 10 ^ 30 < z <= 10 ^ 29 ->
  cd_cmp_int cd_eq a z = Ok (na =? z * ONE) /\ cd_cmp_int cd_lt a z = Ok (na <? z * ONE) /\
  cd_cmp_int cd_le a z = Ok (na <=? z * ONE) /\ cd_cmp_int cd_gt a z = Ok (z * ONE <? na) /\
  cd_cmp_int cd_ge a z = Ok (z * ONE <=? na).
Proof.
  intros Ha Hna Hz.
  assert (Hd : Z.of_nat (ndigits (Z.abs_N z)) <= 4300).
  { destruct (Z.eq_dec z 0) as [->|Hz0]; [vm_compute; discriminate|].
    apply ndigits_le_Z; [lia|]. rewrite N2Z.inj_abs_N.
    assert (10 ^ 30 <= 10 ^ 4300) by (apply p10_le; lia). assert (10 ^ 29 <= 10 ^ 30) by (apply p10_le; lia). lia. }
  pose proof (cd_of_int_stores z Hd) as S. rewrite store_range in S by (unfold ONE, LIMU, MAXU; lia).
  destruct S as (o & Ho & Hu & Hw).
  unfold cd_cmp_int, get_other_int. rewrite Ho. cbn [bindr].
  destruct (C23_order a o na (z * ONE) Ha (c_int z o Ho) Hna Hu) as (-> & -> & -> & -> & ->). repeat split.
Qed.
(** outside that range comparison with an int is wrong: 10^29 == 10^35 is True *)
Theorem C23_large_int_refuted : exists a, constructed a /\ has_units a MAXU /\ cd_cmp_int cd_eq a (10 ^ 35) = Ok true
  /\ cd_cmp_int cd_lt a (10 ^ 35) = Ok false /\ cd_cmp_int cd_lt a (- 10 ^ 30) = Err EInvalidOperation.
Proof.
  exists (cd "100000000000000000000000000000").
  split; [apply (c_str (u "100000000000000000000000000000")); vm_compute; reflexivity|].
  split; [vm_compute; split; [discriminate|reflexivity] | vm_compute; repeat split].
Qed.
(** a negative decimal is false in a condition (decimal.py:73) *)
Theorem C23_negative_is_falsy_refuted d n : constructed d -> has_units d n -> n < 0 -> cd_bool d = false.
Proof.
  intros _ Hn H. unfold cd_bool, fd_ltb. rewrite (compare_units (mkfd false 0 0) d 0 n); [|split; [cbn; lia|reflexivity]|exact Hn].
  destruct (Z.compare_spec 0 n); reflexivity || lia.
Qed.
Example C23_example : cd_lt (cd "1.5") (cd "2") = true /\ cd_cmp_int cd_gt (cd "1.5") 1 = Ok true /\ cd_bool (cd "-3") = false.
Proof. vm_compute. repeat split. Qed.

(** ** C24: integer division and remainder *)
Theorem C24_floordiv_mod a b na nb :
  constructed a -> constructed b -> has_units a na -> has_units b nb -> nb <> 0 ->
  agrees (cd_floordiv a b) (store (Z.quot na nb * ONE)) /\
  exists r nr, cd_mod a b = Ok r /\ has_units r nr /\
    Z.abs nr < Z.abs nb /\ (0 <= na -> 0 <= nr) /\ (na <= 0 -> nr <= 0) /\
    na = Z.quot na nb * nb + nr.
Proof.
  intros Ha Hb Hna Hnb H0. split.
  - apply stores_agrees, cd_floordiv_stores; wf; assumption.
  - destruct (cd_mod_stores a b na nb (constructed_wf _ Ha) (constructed_wf _ Hb) Hna Hnb H0) as (r & E & U & _).
    exists r, (Z.rem na nb). repeat split; try assumption; try apply U.
    + apply Z.rem_bound_abs; exact H0.
    + intros H. apply Z.rem_nonneg; assumption.
    + intros H. apply Z.rem_nonpos; assumption.
    + pose proof (Z.quot_rem' na nb). lia.
Qed.
Theorem C24_by_zero a b na :
  constructed a -> constructed b -> has_units a na -> has_units b 0 ->
  cd_floordiv a b = Err (if na =? 0 then EInvalidOperation else EDivisionByZero) /\
  cd_mod a b = Err EInvalidOperation.
Proof.
  intros _ _ Hna Hnb. pose proof (div_zero a b na 0 Hna Hnb eq_refl) as D.
  assert (is_zero b = true) as Zb.
  { destruct Hnb as [H1 H2]. assert (0 < 10 ^ (fexp b + 30)) by (apply p10_pos; lia). unfold is_zero. apply N.eqb_eq. destruct (fneg b); nia. }
  split.
  - unfold cd_floordiv, fd_floordiv. unfold fd_div in D. rewrite Zb in *. destruct (is_zero a), (na =? 0); cbn in *; congruence.
  - unfold cd_mod, fd_mod. rewrite Zb. reflexivity.
Qed.
Example C24_example :
  map_result_units (cd_floordiv (cd "-7.5") (cd "2")) = Ok (- 3 * ONE) /\
  map_result_units (cd_mod (cd "-7.5") (cd "2")) = Ok (- 15 * 10 ^ 29).
Proof. vm_compute. repeat split. Qed.

Print Assumptions C18_on_grid_and_in_range.
Print Assumptions C19_arithmetic_exact_rounded_down.
Print Assumptions C19_int_operand.
Print Assumptions C20_transfer_conserves.
Print Assumptions C20_add_then_subtract.
Print Assumptions C20_clamped_transfer_refuted.
Print Assumptions C21_text_round_trip.
Print Assumptions C22_ints.
Print Assumptions C22_floats.
Print Assumptions C22_small_negative_floats_refuted.
Print Assumptions C23_order.
Print Assumptions C23_order_int.
Print Assumptions C24_floordiv_mod.
Print Assumptions C24_by_zero.
