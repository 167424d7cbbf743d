(** * Facts about the calendar *)
From Verif Require Import Model.Base Model.Time Spec.TimeSpec Proofs.BaseFacts.
Local Open Scope Z_scope.

Lemma is_leap_spec y : is_leap y = true <-> leap_year y.
Proof.
  unfold is_leap, leap_year.
  rewrite andb_true_iff, orb_true_iff, negb_true_iff, !Z.eqb_eq, Z.eqb_neq.
  rewrite !Z.mod_divide by lia. reflexivity.
Qed.
Lemma months m : 1 <= m <= 12 ->
  m = 1 \/ m = 2 \/ m = 3 \/ m = 4 \/ m = 5 \/ m = 6 \/ m = 7 \/ m = 8 \/ m = 9 \/ m = 10 \/ m = 11 \/ m = 12.
Proof. lia. Qed.
Ltac month_cases m H := 
  let M := fresh in pose proof (months m H) as M;
  destruct M as [M|[M|[M|[M|[M|[M|[M|[M|[M|[M|[M|M]]]]]]]]]]]; subst m.

Lemma month_length_spec y m l : month_length y m l -> 1 <= m <= 12 /\ l = days_in_month y m.
Proof.
  intros H. destruct H as [y m H|y m H|y H|y H].
  - cbn in H. split; [lia|]. destruct H as [<-|[<-|[<-|[<-|[<-|[<-|[<-|[]]]]]]]]; reflexivity.
  - cbn in H. split; [lia|]. destruct H as [<-|[<-|[<-|[<-|[]]]]]; reflexivity.
  - split; [lia|]. unfold days_in_month. apply is_leap_spec in H. rewrite H. reflexivity.
  - split; [lia|]. unfold days_in_month. destruct (is_leap y) eqn:E; [apply is_leap_spec in E; contradiction | reflexivity].
Qed.
Lemma month_length_ex y m : 1 <= m <= 12 -> month_length y m (days_in_month y m).
Proof.
  intros H. month_cases m H; try (apply ml31; cbn; tauto); try (apply ml30; cbn; tauto).
  unfold days_in_month. destruct (is_leap y) eqn:E; cbn [Z.eqb andb].
  - apply ml29, is_leap_spec, E.
  - apply ml28. intros H'. apply is_leap_spec in H'. congruence.
Qed.

Definition vdate (a : Z * Z * Z) : Prop :=
  let '(y, m, d) := a in 1 <= m <= 12 /\ 1 <= d <= days_in_month y m.
Definition ord (a : Z * Z * Z) : Z := let '(y, m, d) := a in ymd2ord y m d.
Definition ylen (y : Z) : Z := 365 + b2z (is_leap y).

Lemma dim_bounds y m : 1 <= m <= 12 -> 28 <= days_in_month y m <= 31.
Proof.
  intros H. month_cases m H; unfold days_in_month; try (vm_compute; intuition discriminate).
  destruct (is_leap y); vm_compute; intuition discriminate.
Qed.
Lemma dby_next y : days_before_year (y + 1) = days_before_year y + ylen y.
Proof.
  unfold days_before_year, ylen, is_leap, b2z. 
  replace (y + 1 - 1) with y by lia.
  destruct (Z.eqb_spec (y mod 4) 0), (Z.eqb_spec (y mod 100) 0), (Z.eqb_spec (y mod 400) 0); cbn [andb orb negb]; lia.
Qed.
Lemma dbm_next y m : 1 <= m < 12 -> days_before_month y (m + 1) = days_before_month y m + days_in_month y m.
Proof.
  intros H. assert (H' : 1 <= m <= 12) by lia. month_cases m H'; try lia;
    unfold days_before_month, days_in_month, b2z; destruct (is_leap y); reflexivity.
Qed.
Lemma dbm_last y : days_before_month y 12 + 31 = ylen y.
Proof. unfold days_before_month, ylen, b2z; destruct (is_leap y); reflexivity. Qed.
Lemma dbm_first y : days_before_month y 1 = 0.
Proof. unfold days_before_month, b2z; destruct (is_leap y); reflexivity. Qed.

Lemma next_day_ord a b : vdate a -> next_day a b -> vdate b /\ ord b = ord a + 1.
Proof.
  intros Hv H. destruct H as [y m d l Hl Hd|y m d Hl Hm|y].
  - apply month_length_spec in Hl as [Hm ->]. unfold vdate, ord in *. unfold ymd2ord. lia.
  - apply month_length_spec in Hl as [Hm' ->]. unfold vdate, ord in *. pose proof (dim_bounds y (m + 1) ltac:(lia)).
    unfold ymd2ord. rewrite dbm_next by lia. lia.
  - unfold vdate, ord. pose proof (dim_bounds (y + 1) 1 ltac:(lia)). unfold ymd2ord. rewrite dby_next, dbm_first.
    pose proof (dbm_last y). lia.
Qed.
Lemma next_day_ex a : vdate a -> exists b, next_day a b.
Proof.
  destruct a as [[y m] d]. intros [Hm Hd]. destruct (Z.eq_dec d (days_in_month y m)) as [E|E].
  - destruct (Z.eq_dec m 12) as [->|].
    + change (days_in_month y 12) with 31 in E. subst d. eexists; apply nd_year.
    + eexists. apply nd_month; [rewrite E; apply month_length_ex; lia | lia].
  - eexists. eapply nd_day; [apply month_length_ex; lia | lia].
Qed.

(** the date within a year *)
Lemma dby_mono y y' : y <= y' -> days_before_year y <= days_before_year y'.
Proof.
  intros H. replace y' with (y + Z.of_nat (Z.to_nat (y' - y))) by lia.
  induction (Z.to_nat (y' - y)) as [|k IH]; [rewrite Z.add_0_r; lia|].
  rewrite Nat2Z.inj_succ. replace (y + Z.succ (Z.of_nat k)) with (y + Z.of_nat k + 1) by lia.
  rewrite dby_next. unfold ylen, b2z. destruct (is_leap _); lia.
Qed.
Lemma dbm_mono y m m' : 1 <= m -> m < m' -> m' <= 12 -> days_before_month y m + days_in_month y m <= days_before_month y m'.
Proof.
  intros H1 H2 H3. rewrite <- dbm_next by lia.
  assert (Hx : forall k, Z.of_nat k + (m + 1) <= 12 -> days_before_month y (m + 1) <= days_before_month y (Z.of_nat k + (m + 1))).
  { induction k as [|k IH]; intros Hk; [rewrite Z.add_0_l; lia|].
    replace (Z.of_nat (S k) + (m + 1)) with (Z.of_nat k + (m + 1) + 1) by lia.
    rewrite (dbm_next y (Z.of_nat k + (m + 1))) by lia. pose proof (dim_bounds y (Z.of_nat k + (m + 1)) ltac:(lia)). specialize (IH ltac:(lia)). lia. }
  specialize (Hx (Z.to_nat (m' - (m + 1)))). replace (Z.of_nat (Z.to_nat (m' - (m + 1))) + (m + 1)) with m' in Hx by lia. apply Hx; lia.
Qed.
Lemma doy_bound y m d : vdate (y, m, d) -> 1 <= days_before_month y m + d <= ylen y.
Proof.
  intros [Hm Hd]. assert (0 <= days_before_month y m).
  { destruct (Z.eq_dec m 1) as [->|]; [rewrite dbm_first; lia|].
    pose proof (dbm_mono y 1 m ltac:(lia) ltac:(lia) ltac:(lia)). rewrite dbm_first in H. pose proof (dim_bounds y 1); lia. }
  split; [lia|]. rewrite <- dbm_last. destruct (Z.eq_dec m 12) as [->|].
  - change (days_in_month y 12) with 31 in Hd. lia.
  - pose proof (dbm_mono y m 12 ltac:(lia) ltac:(lia) ltac:(lia)). lia.
Qed.

Definition date_compare (a b : Z * Z * Z) : comparison :=
  let '(y, m, d) := a in let '(y', m', d') := b in lex_compare [y; m; d] [y'; m'; d'].
Lemma ord_compare a b : vdate a -> vdate b -> Z.compare (ord a) (ord b) = date_compare a b.
Proof.
  destruct a as [[y m] d], b as [[y' m'] d']. intros Ha Hb.
  pose proof (doy_bound _ _ _ Ha) as Da. pose proof (doy_bound _ _ _ Hb) as Db.
  destruct Ha as [Hm Hd], Hb as [Hm' Hd']. unfold date_compare, ord, ymd2ord, lex_compare.
  destruct (Z.compare_spec y y') as [->|Hy|Hy].
  - destruct (Z.compare_spec m m') as [->|Hmm|Hmm].
    + destruct (Z.compare_spec d d') as [->|Hdd|Hdd].
      * apply Z.compare_refl. * apply Z.compare_lt_iff; lia. * apply Z.compare_gt_iff; lia.
    + pose proof (dbm_mono y' m m' ltac:(lia) ltac:(lia) ltac:(lia)). apply Z.compare_lt_iff; lia.
    + pose proof (dbm_mono y' m' m ltac:(lia) ltac:(lia) ltac:(lia)). apply Z.compare_gt_iff; lia.
  - pose proof (dby_mono (y + 1) y' ltac:(lia)). rewrite dby_next in H. apply Z.compare_lt_iff; lia.
  - pose proof (dby_mono (y' + 1) y ltac:(lia)). rewrite dby_next in H. apply Z.compare_gt_iff; lia.
Qed.
Lemma lex_eq a b : lex_compare a b = Eq -> a = b.
Proof.
  revert b; induction a as [|x a IH]; intros [|y b]; cbn; try discriminate; [reflexivity|].
  destruct (Z.compare_spec x y) as [->|H|H]; try discriminate. intros E. rewrite (IH b E). reflexivity.
Qed.
Lemma ord_inj a b : vdate a -> vdate b -> ord a = ord b -> a = b.
Proof.
  intros Ha Hb E. pose proof (ord_compare a b Ha Hb) as C. rewrite E, Z.compare_refl in C.
  destruct a as [[y m] d], b as [[y' m'] d']. symmetry in C. apply lex_eq in C. congruence.
Qed.

(** the month table: within a year, offset n in 0..ylen-1 *)
Definition find_month (leap : bool) (n : Z) : Z * Z :=
  let month := (n + 50) / 32 in
  let preceding := DAYS_BEFORE_MONTH month + b2z ((2 <? month) && leap) in
  if n <? preceding
  then (month - 1, preceding - (DAYS_IN_MONTH (month - 1) + b2z ((month - 1 =? 2) && leap)))
  else (month, preceding).
Definition dim_leap (leap : bool) (m : Z) : Z := if ((m =? 2) && leap)%bool then 29 else DAYS_IN_MONTH m.
Definition dbm_leap (leap : bool) (m : Z) : Z := DAYS_BEFORE_MONTH m + b2z ((2 <? m) && leap).
Definition check_month (leap : bool) (n : Z) : bool :=
  let '(m, p) := find_month leap n in
  ((1 <=? m) && (m <=? 12) && (p =? dbm_leap leap m) && (p <=? n) && (n <? p + dim_leap leap m))%bool.
Lemma check_all : forall (leap : bool) k, (k < 365 + (if leap then 1 else 0))%nat -> check_month leap (Z.of_nat k) = true.
Proof.
  intros leap k Hk.
  assert (H : forall l : bool, forallb (fun k => check_month l (Z.of_nat k)) (seq 0 (365 + (if l then 1 else 0))) = true)
    by (clear; intros [|]; vm_compute; reflexivity).
  specialize (H leap). rewrite forallb_forall in H. apply H. apply in_seq. lia.
Qed.
Lemma find_month_spec y n m p : 0 <= n < ylen y -> find_month (is_leap y) n = (m, p) ->
  vdate (y, m, n - p + 1) /\ days_before_month y m = p.
Proof.
  intros Hn E. pose proof (check_all (is_leap y) (Z.to_nat n)) as C.
  rewrite Z2Nat.id in C by lia. unfold check_month in C. rewrite E in C.
  unfold ylen, b2z in Hn. specialize (C ltac:(destruct (is_leap y); lia)).
  unfold dim_leap, dbm_leap in C. unfold vdate, days_in_month, days_before_month. lia.
Qed.

Lemma ord2ymd_spec n : 1 <= n -> vdate (ord2ymd n) /\ ord (ord2ymd n) = n.
Proof.
  intros Hn. unfold ord2ymd. cbv zeta.
  set (q400 := (n - 1) / 146097). set (r400 := (n - 1) mod 146097).
  set (q100 := r400 / 36524). set (r100 := r400 mod 36524).
  set (q4 := r100 / 1461). set (r4 := r100 mod 1461).
  set (q1 := r4 / 365). set (r1 := r4 mod 365).
  set (year := q400 * 400 + 1 + q100 * 100 + q4 * 4 + q1).
  assert (E400 : n - 1 = 146097 * q400 + r400 /\ 0 <= r400 < 146097) by (unfold q400, r400; lia).
  assert (E100 : r400 = 36524 * q100 + r100 /\ 0 <= r100 < 36524 /\ 0 <= q100 <= 4) by (unfold q100, r100; lia).
  assert (E4 : r100 = 1461 * q4 + r4 /\ 0 <= r4 < 1461 /\ 0 <= q4 <= 24) by (unfold q4, r4; lia).
  assert (E1 : r4 = 365 * q1 + r1 /\ 0 <= r1 < 365 /\ 0 <= q1 <= 4) by (unfold q1, r1; lia).
  clearbody q400 r400 q100 r100 q4 r4 q1 r1.
  destruct ((q1 =? 4) || (q100 =? 4))%bool eqn:Ec.
  - assert (Hy : ord (year - 1, 12, 31) = n).
    { cbn [ord]. unfold ymd2ord.
      pose proof (dby_next (year - 1)) as N. replace (year - 1 + 1) with year in N by lia.
      pose proof (dbm_last (year - 1)) as L.
      assert (days_before_year year = n); [|lia].
      clear N L. unfold days_before_year.
      assert (Hy1 : year - 1 = 400 * q400 + 100 * q100 + 4 * q4 + q1) by (unfold year; lia). rewrite Hy1. clear Hy1 year.
      apply orb_true_iff in Ec. destruct Ec as [E|E]; apply Z.eqb_eq in E; subst.
      - assert (r1 = 0) by lia. lia.
      - lia. }
    split; [|exact Hy]. unfold vdate. change (days_in_month (year - 1) 12) with 31. lia.
  - apply orb_false_iff in Ec as [Ec1 Ec2]. apply Z.eqb_neq in Ec1, Ec2.
    assert (Hleap : ((q1 =? 3) && (negb (q4 =? 24) || (q100 =? 3)))%bool = is_leap year).
    { unfold is_leap. 
      assert (M4 : (year mod 4 =? 0) = (q1 =? 3)) by (unfold year; destruct (Z.eqb_spec q1 3); [apply Z.eqb_eq | apply Z.eqb_neq]; lia).
      rewrite M4. destruct (Z.eqb_spec q1 3) as [->|]; [|reflexivity]. cbn [andb].
      assert (M100 : (year mod 100 =? 0) = (q4 =? 24)) by (unfold year; destruct (Z.eqb_spec q4 24); [apply Z.eqb_eq | apply Z.eqb_neq]; lia).
      rewrite M100. destruct (Z.eqb_spec q4 24) as [->|]; [|reflexivity]. cbn [negb orb].
      unfold year. destruct (Z.eqb_spec q100 3); symmetry; [apply Z.eqb_eq | apply Z.eqb_neq]; lia. }
    rewrite Hleap. fold (find_month (is_leap year) r1).
    destruct (find_month (is_leap year) r1) as [m p] eqn:Ef.
    destruct (find_month_spec year r1 m p) as [Hv Hp]; [unfold ylen, b2z; destruct (is_leap year); lia | exact Ef|].
    split; [exact Hv|]. cbn [ord]. unfold ymd2ord. rewrite Hp.
    assert (days_before_year year = n - 1 - r1); [|lia].
    unfold days_before_year. assert (Hy1 : year - 1 = 400 * q400 + 100 * q100 + 4 * q4 + q1) by (unfold year; lia). rewrite Hy1.
    clear - E400 E100 E4 E1 Ec1 Ec2. lia.
Qed.
Lemma ord2ymd_ord a : vdate a -> 1 <= ord a -> ord2ymd (ord a) = a.
Proof. intros Hv Ho. destruct (ord2ymd_spec (ord a) Ho) as [H1 H2]. apply ord_inj; assumption. Qed.

Lemma ord_pos y m d : vdate (y, m, d) -> 1 <= y -> 1 <= ord (y, m, d).
Proof.
  intros Hv Hy. pose proof (doy_bound _ _ _ Hv). pose proof (dby_mono 1 y Hy). change (days_before_year 1) with 0 in H0.
  cbn [ord]. unfold ymd2ord. lia.
Qed.

(** the model's day number is the calendar's *)
Lemma day_number_sound a n : day_number a n -> vdate a /\ ord a = n /\ 1 <= n.
Proof.
  induction 1 as [|a b n H (IH1 & IH2 & IH3) Hn]; [vm_compute; intuition discriminate|].
  destruct (next_day_ord a b IH1 Hn). lia || (split; [assumption|lia]).
Qed.
Lemma day_number_complete a : vdate a -> 1 <= ord a -> day_number a (ord a).
Proof.
  intros Hv Ho.
  assert (H : forall k, day_number (ord2ymd (Z.of_nat k + 1)) (Z.of_nat k + 1)).
  { induction k as [|k IH]; [apply dn_first|].
    destruct (ord2ymd_spec (Z.of_nat k + 1) ltac:(lia)) as [V1 O1].
    destruct (next_day_ex _ V1) as (b & Hb). destruct (next_day_ord _ _ V1 Hb) as [Vb Ob].
    destruct (ord2ymd_spec (Z.of_nat (S k) + 1) ltac:(lia)) as [V2 O2].
    assert (ord2ymd (Z.of_nat (S k) + 1) = b) as -> by (apply ord_inj; [assumption | assumption | lia]).
    replace (Z.of_nat (S k) + 1) with (Z.of_nat k + 1 + 1) by lia. eapply dn_next; eassumption. }
  specialize (H (Z.to_nat (ord a - 1))). replace (Z.of_nat (Z.to_nat (ord a - 1)) + 1) with (ord a) in H by lia.
  rewrite ord2ymd_ord in H by assumption. exact H.
Qed.

(** ** datetimes *)
Definition dnum (t : datetime) : Z := ymd2ord (dt_year t) (dt_month t) (dt_day t).
Definition micros (t : datetime) : Z := (dnum t * 86400 + secs_of_day t) * 1000000 + dt_micro t.
Definition vdt (t : datetime) : Prop := datetime_valid t = true.
Lemma is_datetime_valid t : is_datetime t -> vdt t.
Proof.
  intros H. destruct H as [y mo d h mi s us t H]. unfold mk_datetime in H. destruct (forallb _ _); [|discriminate]. cbn [negb] in H.
  destruct (datetime_valid (mkdt y mo d h mi s us)) eqn:E; [|discriminate]. injection H as <-. exact E.
Qed.
Lemma vdt_vdate t : vdt t -> vdate (dt_year t, dt_month t, dt_day t) /\ 1 <= dt_year t <= 9999.
Proof. unfold vdt, datetime_valid, vdate. lia. Qed.
Lemma vdt_secs t : vdt t -> 0 <= secs_of_day t < 86400 /\ 0 <= dt_micro t < 1000000 /\ 0 <= dt_hour t < 24 /\ 0 <= dt_minute t < 60 /\ 0 <= dt_second t < 60.
Proof. unfold vdt, datetime_valid, secs_of_day. lia. Qed.
Lemma instant_micros t n : vdt t -> (instant t n <-> n = micros t).
Proof.
  intros Hv. destruct (vdt_vdate t Hv) as [Hd Hy]. split.
  - intros (day & Hday & ->). apply day_number_sound in Hday as (_ & Ho & _). unfold micros, dnum, secs_of_day. cbn [ord] in Ho. lia.
  - intros ->. exists (dnum t). split.
    + apply (day_number_complete _ Hd). apply ord_pos; [exact Hd | lia].
    + unfold micros, secs_of_day. lia.
Qed.
Lemma dt_compare_micros a b : vdt a -> vdt b -> dt_compare a b = Z.compare (micros a) (micros b).
Proof.
  intros Ha Hb. destruct (vdt_vdate a Ha) as [Da _], (vdt_vdate b Hb) as [Db _].
  pose proof (ord_compare _ _ Da Db) as C. cbn [ord date_compare] in C.
  pose proof (vdt_secs a Ha) as Sa. pose proof (vdt_secs b Hb) as Sb.
  fold (dnum a) in C. fold (dnum b) in C.
  unfold dt_compare, dt_fields.
  assert (Happ : forall l1 l2 r1 r2, List.length l1 = List.length l2 ->
            lex_compare (l1 ++ r1) (l2 ++ r2) = match lex_compare l1 l2 with Eq => lex_compare r1 r2 | c => c end).
  { induction l1 as [|x l1 IH]; intros [|y l2] r1 r2 Hl; try discriminate; [reflexivity|]. cbn.
    destruct (x ?= y); try reflexivity. apply IH. cbn in Hl; injection Hl as Hl; exact Hl. }
  change [dt_year a; dt_month a; dt_day a; dt_hour a; dt_minute a; dt_second a; dt_micro a]
    with ([dt_year a; dt_month a; dt_day a] ++ [dt_hour a; dt_minute a; dt_second a; dt_micro a]).
  change [dt_year b; dt_month b; dt_day b; dt_hour b; dt_minute b; dt_second b; dt_micro b]
    with ([dt_year b; dt_month b; dt_day b] ++ [dt_hour b; dt_minute b; dt_second b; dt_micro b]).
  rewrite Happ by reflexivity. rewrite <- C. unfold micros, secs_of_day in *.
  destruct (Z.compare_spec (dnum a) (dnum b)) as [E|E|E].
  - rewrite E. cbn [lex_compare].
    destruct (Z.compare_spec (dt_hour a) (dt_hour b)) as [E1|E1|E1]; [rewrite E1| |].
    + destruct (Z.compare_spec (dt_minute a) (dt_minute b)) as [E2|E2|E2]; [rewrite E2| |].
      * destruct (Z.compare_spec (dt_second a) (dt_second b)) as [E3|E3|E3]; [rewrite E3| |].
        -- destruct (Z.compare_spec (dt_micro a) (dt_micro b)) as [E4|E4|E4]; [rewrite E4; rewrite Z.compare_refl; reflexivity| |];
           symmetry; [apply Z.compare_lt_iff | apply Z.compare_gt_iff]; lia.
        -- symmetry; apply Z.compare_lt_iff; lia.
        -- symmetry; apply Z.compare_gt_iff; lia.
      * symmetry; apply Z.compare_lt_iff; lia.
      * symmetry; apply Z.compare_gt_iff; lia.
    + symmetry; apply Z.compare_lt_iff; lia.
    + symmetry; apply Z.compare_gt_iff; lia.
  - symmetry; apply Z.compare_lt_iff; lia.
  - symmetry; apply Z.compare_gt_iff; lia.
Qed.
Lemma micros_inj a b : vdt a -> vdt b -> micros a = micros b -> a = b.
Proof.
  intros Ha Hb E. pose proof (dt_compare_micros a b Ha Hb) as C. rewrite E, Z.compare_refl in C.
  unfold dt_compare in C. apply lex_eq in C. unfold dt_fields in C. destruct a as [a1 a2 a3 a4 a5 a6 a7], b as [b1 b2 b3 b4 b5 b6 b7]. cbn in C. injection C; intros; subst; reflexivity.
Qed.

(** ** timedeltas *)
Definition tot (t : timedelta) : Z := td_days t * 86400 + td_secs t.
Definition vtd (t : timedelta) : Prop := 0 <= td_secs t < 86400 /\ -999999999 <= td_days t <= 999999999 /\ td_raw t = tot t.
Lemma mk_timedelta_spec w d h m s :
  let n := total w d h m s in
  if ((- 999999999 * 86400 <=? n) && (n <? 1000000000 * 86400))%bool
  then exists t, mk_timedelta w d h m s = Ok t /\ vtd t /\ tot t = n
  else mk_timedelta w d h m s = Err EOverflowError.
Proof.
  unfold mk_timedelta, total. cbv zeta.
  set (n := s + 60 * (m + 60 * (h + 24 * (d + 7 * w)))).
  replace (((w * 7 + d) * 24 + h) * 3600 + m * 60 + s) with n by (unfold n; lia).
  replace ((-999999999 <=? n / 86400) && (n / 86400 <=? 999999999))%bool with ((- 999999999 * 86400 <=? n) && (n <? 1000000000 * 86400))%bool by lia.
  destruct (_ && _)%bool eqn:E; [|reflexivity]. eexists. split; [reflexivity|].
  unfold vtd, tot, get_raw_seconds; cbn [td_days td_secs td_raw]. split; [|lia]. unfold n in *; clear -E. split; [lia|]. split; lia.
Qed.
Lemma mk_timedelta_tot w d h m s t : mk_timedelta w d h m s = Ok t -> vtd t /\ tot t = total w d h m s.
Proof.
  intros H. pose proof (mk_timedelta_spec w d h m s) as S. cbv zeta in S. destruct (_ && _)%bool; [|congruence].
  destruct S as (t' & E & V & T). assert (t' = t) by congruence. subst. auto.
Qed.
Lemma has_total_tot t n : has_total t n <-> vtd t /\ n = tot t.
Proof.
  split.
  - intros (w & d & h & m & s & E & ->). apply mk_timedelta_tot in E as [V <-]. auto.
  - intros [(V1 & V2 & V3) ->]. exists 0, (td_days t), 0, 0, (td_secs t). split.
    + unfold mk_timedelta, get_raw_seconds. 
      replace (((0 * 7 + td_days t) * 24 + 0) * 3600 + 0 * 60 + td_secs t) with (td_secs t + td_days t * 86400) by lia.
      rewrite Z.div_add, Z.mod_add, Z.div_small, Z.mod_small by lia. 
      rewrite (proj2 (Z.leb_le _ _)), (proj2 (Z.leb_le _ _)) by lia. cbn [andb]. unfold tot in V3. destruct t as [a b c]; cbn [td_days td_secs td_raw] in *.
      f_equal. f_equal; lia.
    + unfold total, tot. lia.
Qed.
Lemma is_timedelta_vtd t : is_timedelta t -> vtd t.
Proof. intros H. destruct H as [w d h m s t H]. apply (mk_timedelta_tot _ _ _ _ _ _ H). Qed.
Lemma mk_td_result w d h m s : td_result (mk_timedelta w d h m s) (total w d h m s).
Proof.
  unfold td_result. pose proof (mk_timedelta_spec w d h m s) as S. cbv zeta in S. destruct (_ && _)%bool; [|exact S].
  destruct S as (t & E & V & T). exists t. split; [exact E|]. exists w, d, h, m, s. auto.
Qed.
Lemma td_compare_tot a b : vtd a -> vtd b -> td_compare a b = Z.compare (tot a) (tot b).
Proof.
  intros (A1 & A2 & _) (B1 & B2 & _). unfold td_compare, tot; cbn [lex_compare].
  destruct (Z.compare_spec (td_days a) (td_days b)) as [E|E|E].
  - rewrite E. destruct (Z.compare_spec (td_secs a) (td_secs b)) as [E2|E2|E2]; [rewrite E2; rewrite Z.compare_refl; reflexivity| |]; symmetry; [apply Z.compare_lt_iff|apply Z.compare_gt_iff]; lia.
  - symmetry; apply Z.compare_lt_iff; lia.
  - symmetry; apply Z.compare_gt_iff; lia.
Qed.

(** ** shifting a datetime *)
Lemma ord2ymd_year n : 1 <= n <= MAXORDINAL -> let '(y, _, _) := ord2ymd n in 1 <= y <= 9999.
Proof.
  intros H. destruct (ord2ymd_spec n ltac:(lia)) as [V O]. destruct (ord2ymd n) as [[y m] d].
  pose proof (doy_bound _ _ _ V) as B. cbn [ord] in O. unfold ymd2ord in O. split.
  - destruct (Z.le_gt_cases 1 y); [assumption|]. exfalso. pose proof (dby_mono (y + 1) 1 ltac:(lia)) as D. rewrite dby_next in D.
    change (days_before_year 1) with 0 in D. lia.
  - destruct (Z.le_gt_cases y 9999); [assumption|]. exfalso. pose proof (dby_mono 10000 y ltac:(lia)) as D.
    change (days_before_year 10000) with 3652059 in D. unfold MAXORDINAL in H. lia.
Qed.
Lemma dt_shift_spec sign t d : vdt t ->
  let day := (dnum t * 86400 + secs_of_day t + sign * tot d) / 86400 in
  if ((0 <? day) && (day <=? MAXORDINAL))%bool
  then exists t', dt_shift sign t d = Ok t' /\ vdt t' /\ is_datetime t' /\ micros t' = micros t + sign * tot d * 1000000
  else dt_shift sign t d = Err EOverflowError.
Proof.
  intros Hv. cbv zeta. unfold dt_shift. fold (dnum t).
  pose proof (vdt_secs t Hv) as (S1 & S2 & _).
  set (secs := secs_of_day t + sign * td_secs d).
  assert (Hday : dnum t + sign * td_days d + secs / 86400 = (dnum t * 86400 + secs_of_day t + sign * tot d) / 86400).
  { unfold tot. replace (dnum t * 86400 + secs_of_day t + sign * (td_days d * 86400 + td_secs d)) with (secs + (dnum t + sign * td_days d) * 86400) by (unfold secs; lia).
    rewrite Z.div_add by lia. lia. }
  rewrite Hday. destruct (_ && _)%bool eqn:E; [|reflexivity].
  set (day := (dnum t * 86400 + secs_of_day t + sign * tot d) / 86400) in *.
  destruct (ord2ymd_spec day ltac:(lia)) as [V O]. pose proof (ord2ymd_year day ltac:(lia)) as Y.
  destruct (ord2ymd day) as [[y m] dd]. destruct V as [V1 V2]. pose proof (dim_bounds y m V1).
  set (s := secs mod 86400). assert (Hs : 0 <= s < 86400) by (unfold s; lia).
  set (t' := mkdt y m dd (s / 3600) (s mod 3600 / 60) (s mod 60) (dt_micro t)).
  assert (Vt : vdt t').
  { unfold vdt, datetime_valid; cbn [t' dt_year dt_month dt_day dt_hour dt_minute dt_second dt_micro]. clearbody s. clear -V1 V2 Y Hs S2. lia. }
  assert (Hmk : mk_datetime y m dd (s / 3600) (s mod 3600 / 60) (s mod 60) (dt_micro t) = Ok t').
  { unfold mk_datetime. fold t'.
    assert (forallb c_int [y; m; dd; s / 3600; s mod 3600 / 60; s mod 60; dt_micro t] = true) as ->.
    { unfold c_int. cbn [forallb]. clearbody s. clear -V1 V2 Y Hs S2 H. lia. }
    cbn [negb]. unfold vdt in Vt. rewrite Vt. reflexivity. }
  exists t'. split; [exact Hmk|]. split; [exact Vt|]. split; [econstructor; exact Hmk|].
  unfold micros. unfold dnum at 1, secs_of_day at 1. cbn [t' dt_year dt_month dt_day dt_hour dt_minute dt_second dt_micro].
  cbn [ord] in O. rewrite O.
  assert (s / 3600 * 3600 + s mod 3600 / 60 * 60 + s mod 60 = s) as -> by (clearbody s; clear -Hs; lia).
  assert (day * 86400 + s = dnum t * 86400 + secs_of_day t + sign * tot d); [|lia].
  unfold s. rewrite <- Hday. unfold tot. pose proof (Z.div_mod secs 86400 ltac:(lia)) as DM. unfold secs in *. lia.
Qed.
Lemma dt_sub_tot a b : vdt a -> vdt b -> exists t, dt_sub a b = Ok t /\ vtd t /\ tot t = (micros a - micros b) / 1000000.
Proof.
  intros Ha Hb. unfold dt_sub. fold (dnum a). fold (dnum b).
  pose proof (vdt_secs a Ha) as (A1 & A2 & _). pose proof (vdt_secs b Hb) as (B1 & B2 & _).
  set (secs := secs_of_day a - secs_of_day b + (dt_micro a - dt_micro b) / 1000000).
  assert (Hn : total 0 (dnum a - dnum b + secs / 86400) 0 0 (secs mod 86400) = (micros a - micros b) / 1000000).
  { unfold total, micros. pose proof (Z.div_mod secs 86400 ltac:(lia)).
    replace ((dnum a * 86400 + secs_of_day a) * 1000000 + dt_micro a - ((dnum b * 86400 + secs_of_day b) * 1000000 + dt_micro b))
      with ((dt_micro a - dt_micro b) + ((dnum a - dnum b) * 86400 + secs_of_day a - secs_of_day b) * 1000000) by lia.
    rewrite Z.div_add by lia. unfold secs in *. lia. }
  pose proof (mk_timedelta_spec 0 (dnum a - dnum b + secs / 86400) 0 0 (secs mod 86400)) as S. cbv zeta in S. rewrite Hn in S.
  destruct (vdt_vdate a Ha) as [Da Ya], (vdt_vdate b Hb) as [Db Yb].
  assert (R : forall t, vdt t -> 1 <= dnum t <= 3652059).
  { intros t Ht. destruct (vdt_vdate t Ht) as [D Y]. split; [apply (ord_pos _ _ _ D); lia|].
    pose proof (doy_bound _ _ _ D). pose proof (dby_mono (dt_year t + 1) 10000 ltac:(lia)) as M. rewrite dby_next in M.
    change (days_before_year 10000) with 3652059 in M. unfold dnum, ymd2ord. lia. }
  pose proof (R a Ha). pose proof (R b Hb).
  rewrite (proj2 (Z.leb_le _ _)) in S by (unfold micros; lia). rewrite (proj2 (Z.ltb_lt _ _)) in S by (unfold micros; lia).
  exact S.
Qed.
