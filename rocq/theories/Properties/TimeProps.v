(** * Datetimes and timedeltas: properties C25 - C27 *)
From Verif Require Import Model.Base Model.Time Spec.TimeSpec Proofs.BaseFacts Proofs.TimeFacts.
Local Open Scope Z_scope.

Lemma instant_of t : is_datetime t -> instant t (micros t).
Proof. intros H. apply instant_micros; [apply is_datetime_valid; exact H | reflexivity]. Qed.

(** ** C25: the comparisons are the order of instants *)
Theorem C25_order a b na nb :
  is_datetime a -> is_datetime b -> instant a na -> instant b nb ->
  dt_lt a b = (na <? nb) /\ dt_le a b = (na <=? nb) /\ dt_eq a b = (na =? nb) /\
  dt_ne a b = negb (na =? nb) /\ dt_ge a b = (nb <=? na) /\ dt_gt a b = (nb <? na).
Proof.
  intros Ha Hb Ia Ib. apply is_datetime_valid in Ha, Hb.
  apply (instant_micros a na Ha) in Ia. apply (instant_micros b nb Hb) in Ib. subst.
  unfold dt_ne, dt_lt, dt_le, dt_eq, dt_ge, dt_gt. rewrite (dt_compare_micros a b Ha Hb).
  destruct (Z.compare_spec (micros a) (micros b)) as [E|E|E]; repeat split; try f_equal; symmetry;
    first [apply Z.eqb_eq; lia | apply Z.eqb_neq; lia | apply Z.ltb_lt; lia | apply Z.ltb_ge; lia | apply Z.leb_le; lia | apply Z.leb_gt; lia].
Qed.
(** every datetime has exactly one instant, and different datetimes have different instants *)
Theorem C25_instant_unique a b n m :
  is_datetime a -> is_datetime b -> instant a n ->
  (exists k, instant b k) /\ (instant a m -> m = n) /\ (instant b n -> a = b).
Proof.
  intros Ha Hb Ia. split; [exists (micros b); apply instant_of; exact Hb|]. apply is_datetime_valid in Ha, Hb.
  apply (instant_micros a n Ha) in Ia. split.
  - intros Im. apply (instant_micros a m Ha) in Im. congruence.
  - intros Ib. apply (instant_micros b n Hb) in Ib. apply micros_inj; congruence.
Qed.
(** adding a timedelta moves the instant by exactly its total, or raises; and subtracting gives it back *)
Theorem C25_add_then_difference a t na nt :
  is_datetime a -> has_total t nt -> instant a na ->
  (exists b, dt_add a t = Ok b /\ is_datetime b /\ instant b (na + nt * 1000000) /\
     exists t', dt_sub b a = Ok t' /\ td_eq t' t = true /\ has_total t' nt /\ (dt_gt b a = (0 <? nt)))
  \/ (dt_add a t = Err EOverflowError /\
      forall b nb, is_datetime b -> instant b nb -> nb <> na + nt * 1000000).
Proof.
  intros Ha Ht Ia. apply is_datetime_valid in Ha. apply (instant_micros a na Ha) in Ia. subst na.
  apply has_total_tot in Ht as [Vt ->].
  pose proof (dt_shift_spec 1 a t Ha) as S. cbv zeta in S. unfold dt_add.
  destruct (_ && _)%bool eqn:E.
  - left. destruct S as (b & E1 & Vb & Db & Mb). rewrite Z.mul_1_l in Mb. exists b.
    split; [exact E1|]. split; [exact Db|]. split; [apply instant_micros; [exact Vb | lia]|].
    destruct (dt_sub_tot b a Vb Ha) as (t' & E2 & V2 & T2).
    replace (micros b - micros a) with (tot t * 1000000) in T2 by lia. rewrite Z.div_mul in T2 by lia.
    exists t'. split; [exact E2|]. split; [|split; [apply has_total_tot; auto|]].
    + unfold td_eq. rewrite td_compare_tot, T2, Z.compare_refl by assumption. reflexivity.
    + unfold dt_gt. rewrite (dt_compare_micros b a Vb Ha), Mb.
      destruct (Z.compare_spec (micros a + tot t * 1000000) (micros a)) as [C|C|C]; symmetry;
        [apply Z.ltb_ge; lia | apply Z.ltb_ge; lia | apply Z.ltb_lt; lia].
  - right. split; [exact S|]. intros b nb Hb Ib. apply is_datetime_valid in Hb. apply (instant_micros b nb Hb) in Ib.
    subst nb. intros Eq.
    assert (R : 1 <= dnum b <= MAXORDINAL).
    { destruct (vdt_vdate b Hb) as [D Y]. split; [apply (ord_pos _ _ _ D); lia|].
      pose proof (doy_bound _ _ _ D). pose proof (dby_mono (dt_year b + 1) 10000 ltac:(lia)) as M. rewrite dby_next in M.
      change (days_before_year 10000) with 3652059 in M. unfold dnum, ymd2ord, MAXORDINAL. lia. }
    pose proof (vdt_secs a Ha) as (A1 & A2 & _). pose proof (vdt_secs b Hb) as (B1 & B2 & _).
    unfold micros in Eq.
    assert (dnum b * 86400 + secs_of_day b = dnum a * 86400 + secs_of_day a + 1 * tot t) by lia.
    rewrite <- H in E. rewrite Z.div_add_l, Z.div_small in E by lia. lia.
Qed.
(** Non-vacuous: leap day arithmetic *)
Example C25_example : exists a b t,
  mk_datetime 2024 2 28 23 59 59 5 = Ok a /\ mk_timedelta 0 1 0 0 2 = Ok t /\ is_datetime a /\ has_total t 86402 /\
  dt_add a t = Ok b /\ b = mkdt 2024 3 1 0 0 1 5 /\ dt_sub b a = Ok t.
Proof.
  exists (mkdt 2024 2 28 23 59 59 5), (mkdt 2024 3 1 0 0 1 5), (mktd 1 2 86402).
  split; [vm_compute; reflexivity|]. split; [vm_compute; reflexivity|].
  split; [apply (isdt 2024 2 28 23 59 59 5); vm_compute; reflexivity|].
  split; [exists 0, 1, 0, 0, 2; split; vm_compute; reflexivity|].
  split; [vm_compute; reflexivity|]. split; vm_compute; reflexivity.
Qed.

(** ** C26: timedelta arithmetic on total seconds *)
Theorem C26_construct w d h m s : td_result (mk_timedelta w d h m s) (total w d h m s).
Proof. apply mk_td_result. Qed.
Theorem C26_arithmetic a b na nb k :
  has_total a na -> has_total b nb ->
  td_result (td_add a b) (na + nb) /\ td_result (td_sub a b) (na - nb) /\ td_result (td_mul_int a k) (na * k).
Proof.
  intros Ha Hb. apply has_total_tot in Ha as [Va ->], Hb as [Vb ->]. unfold td_add, td_sub, td_mul_int, tot.
  repeat split.
  - replace (td_days a * 86400 + td_secs a + (td_days b * 86400 + td_secs b)) with (total 0 (td_days a + td_days b) 0 0 (td_secs a + td_secs b)) by (unfold total; lia). apply mk_td_result.
  - replace (td_days a * 86400 + td_secs a - (td_days b * 86400 + td_secs b)) with (total 0 (td_days a - td_days b) 0 0 (td_secs a - td_secs b)) by (unfold total; lia). apply mk_td_result.
  - replace ((td_days a * 86400 + td_secs a) * k) with (total 0 (td_days a * k) 0 0 (td_secs a * k)) by (unfold total; lia). apply mk_td_result.
Qed.
Theorem C26_inverse a b na nb : has_total a na -> has_total b nb ->
  forall s, td_add a b = Ok s -> exists r, td_sub s b = Ok r /\ td_eq r a = true.
Proof.
  intros Ha Hb s Hs. pose proof (C26_arithmetic a b na nb 0 Ha Hb) as (A & _ & _).
  unfold td_result in A. destruct (_ && _)%bool eqn:E; [|congruence]. destruct A as (s' & E1 & T1).
  assert (s' = s) by congruence. subst s'.
  pose proof (C26_arithmetic s b (na + nb) nb 0 T1 Hb) as (_ & B & _). replace (na + nb - nb) with na in B by lia.
  apply has_total_tot in Ha as [Va Ea]. unfold td_result in B. clear E.
  destruct (_ && _)%bool eqn:E2.
  - destruct B as (r & E3 & T3). exists r. split; [exact E3|]. apply has_total_tot in T3 as [V3 T3].
    unfold td_eq. rewrite td_compare_tot by assumption. rewrite <- T3, Ea, Z.compare_refl. reflexivity.
  - exfalso. destruct Va as (V1 & V2 & _). unfold tot in Ea. lia.
Qed.
Theorem C26_units a na : has_total a na ->
  td_seconds a = na /\ td_minutes a = na / 60 /\ td_hours a = na / (60 * 60) /\
  td_days_prop a = na / (24 * 60 * 60) /\ td_weeks a = na / (7 * 24 * 60 * 60).
Proof.
  intros Ha. apply has_total_tot in Ha as [(_ & _ & R) ->].
  unfold td_seconds, td_minutes, td_hours, td_days_prop, td_weeks. rewrite R. repeat split.
Qed.
Theorem C26_order a b na nb : has_total a na -> has_total b nb ->
  td_lt a b = (na <? nb) /\ td_le a b = (na <=? nb) /\ td_eq a b = (na =? nb) /\
  td_ne a b = negb (na =? nb) /\ td_ge a b = (nb <=? na) /\ td_gt a b = (nb <? na).
Proof.
  intros Ha Hb. apply has_total_tot in Ha as [Va ->], Hb as [Vb ->].
  unfold td_ne, td_lt, td_le, td_eq, td_ge, td_gt. rewrite (td_compare_tot a b Va Vb).
  destruct (Z.compare_spec (tot a) (tot b)) as [E|E|E]; repeat split; try f_equal; symmetry;
    first [apply Z.eqb_eq; lia | apply Z.eqb_neq; lia | apply Z.ltb_lt; lia | apply Z.ltb_ge; lia | apply Z.leb_le; lia | apply Z.leb_gt; lia].
Qed.
Example C26_example : exists a, has_total a (-5400) /\ td_hours a = -2 /\ td_days a = -1 /\ td_secs a = 81000
  /\ exists b, td_mul_int a 3 = Ok b /\ has_total b (-16200).
Proof.
  exists (mktd (-1) 81000 (-5400)). split; [exists 0, 0, (-1), (-30), 0; split; vm_compute; reflexivity|].
  do 3 (split; [vm_compute; reflexivity|]). exists (mktd (-1) 70200 (-16200)).
  split; [vm_compute; reflexivity|]. exists 0, 0, 0, 0, (-16200). split; vm_compute; reflexivity.
Qed.
(** Multiplying two timedeltas multiplies days and seconds separately: it is not a product of anything *)
Theorem C26_product_refuted : exists a b c, has_total a 90000 /\ has_total b 90000 /\ td_mul a b = Ok c /\ has_total c 13046400.
Proof.
  exists (mktd 1 3600 90000), (mktd 1 3600 90000), (mktd 151 0 13046400).
  do 2 (split; [exists 0, 1, 1, 0, 0; split; vm_compute; reflexivity|]). split; [vm_compute; reflexivity|].
  exists 0, 0, 0, 0, 13046400. split; vm_compute; reflexivity.
Qed.

(** ** C27: the difference of datetimes is exact to the second, and drops the microseconds *)
Theorem C27_difference_floor a b na nb :
  is_datetime a -> is_datetime b -> instant a na -> instant b nb ->
  exists t, dt_sub a b = Ok t /\ has_total t ((na - nb) / 1000000).
Proof.
  intros Ha Hb Ia Ib. apply is_datetime_valid in Ha, Hb.
  apply (instant_micros a na Ha) in Ia. apply (instant_micros b nb Hb) in Ib. subst.
  destruct (dt_sub_tot a b Ha Hb) as (t & E & V & T). exists t. split; [exact E|]. apply has_total_tot. auto.
Qed.
(** b + (a - b) = a exactly when both have the same microsecond field *)
Theorem C27_round_trip_partial a b :
  is_datetime a -> is_datetime b ->
  exists t, dt_sub a b = Ok t /\ (dt_micro a = dt_micro b <-> dt_add b t = Ok a).
Proof.
  intros Ha Hb. apply is_datetime_valid in Ha, Hb.
  destruct (dt_sub_tot a b Ha Hb) as (t & E & V & T). exists t. split; [exact E|].
  pose proof (vdt_secs a Ha) as (A1 & A2 & _). pose proof (vdt_secs b Hb) as (B1 & B2 & _).
  pose proof (dt_shift_spec 1 b t Hb) as S. cbv zeta in S. unfold dt_add. split.
  - intros Hm. assert (Hq : tot t = dnum a * 86400 + secs_of_day a - (dnum b * 86400 + secs_of_day b)).
    { rewrite T. unfold micros. rewrite Hm.
      replace ((dnum a * 86400 + secs_of_day a) * 1000000 + dt_micro b - ((dnum b * 86400 + secs_of_day b) * 1000000 + dt_micro b))
        with ((dnum a * 86400 + secs_of_day a - (dnum b * 86400 + secs_of_day b)) * 1000000) by lia. apply Z.div_mul; lia. }
    assert (R : 1 <= dnum a <= MAXORDINAL).
    { destruct (vdt_vdate a Ha) as [D Y]. split; [apply (ord_pos _ _ _ D); lia|].
      pose proof (doy_bound _ _ _ D). pose proof (dby_mono (dt_year a + 1) 10000 ltac:(lia)) as M. rewrite dby_next in M.
      change (days_before_year 10000) with 3652059 in M. unfold dnum, ymd2ord, MAXORDINAL. lia. }
    replace (dnum b * 86400 + secs_of_day b + 1 * tot t) with (dnum a * 86400 + secs_of_day a) in S by lia.
    rewrite Z.div_add_l, Z.div_small, Z.add_0_r in S by lia.
    rewrite (proj2 (Z.ltb_lt _ _)), (proj2 (Z.leb_le _ _)) in S by lia. cbn [andb] in S.
    destruct S as (a' & Ea & Va & _ & Ma). rewrite Ea. f_equal. apply micros_inj; [assumption | assumption|].
    rewrite Ma. unfold micros. lia.
  - intros He. destruct (_ && _)%bool in S; [|congruence]. destruct S as (a' & Ea & _ & _ & Ma).
    assert (a' = a) by congruence. subst a'. unfold micros in Ma. lia.
Qed.
Theorem C27_microseconds_lost_refuted : exists a b t,
  is_datetime a /\ is_datetime b /\ dt_sub a b = Ok t /\ dt_gt a b = true /\ has_total t 0 /\ dt_add b t <> Ok a.
Proof.
  exists (mkdt 2024 1 1 0 0 0 999999), (mkdt 2024 1 1 0 0 0 0), (mktd 0 0 0).
  split; [apply (isdt 2024 1 1 0 0 0 999999); vm_compute; reflexivity|].
  split; [apply (isdt 2024 1 1 0 0 0 0); vm_compute; reflexivity|].
  split; [vm_compute; reflexivity|]. split; [vm_compute; reflexivity|].
  split; [exists 0, 0, 0, 0, 0; split; vm_compute; reflexivity | vm_compute; discriminate].
Qed.
Example C27_example : exists a b, is_datetime a /\ is_datetime b /\ dt_micro a = dt_micro b /\ dt_lt a b = true.
Proof.
  exists (mkdt 1999 12 31 23 59 59 7), (mkdt 2000 1 1 0 0 0 7).
  split; [apply (isdt 1999 12 31 23 59 59 7); vm_compute; reflexivity|].
  split; [apply (isdt 2000 1 1 0 0 0 7); vm_compute; reflexivity|]. split; vm_compute; reflexivity.
Qed.

Print Assumptions C25_order.
Print Assumptions C25_instant_unique.
Print Assumptions C25_add_then_difference.
Print Assumptions C26_construct.
Print Assumptions C26_arithmetic.
Print Assumptions C26_inverse.
Print Assumptions C26_units.
Print Assumptions C26_order.
Print Assumptions C27_difference_floor.
Print Assumptions C27_round_trip_partial.
Print Assumptions C27_microseconds_lost_refuted.
