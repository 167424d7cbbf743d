(** * C96: the operators of dates and durations, for operands of every type *)
From Coq Require Import Lia.
From Verif Require Import Model.Base Model.Dec Model.Time Model.Value Model.TimeOps Spec.TimeSpec Spec.TimeOpsSpec Proofs.TimeFacts Properties.TimeProps.
Local Open Scope Z_scope.

Lemma td_result_duration r n : td_result r n -> duration_result (rmap VDelta r) n.
Proof.
  unfold td_result, duration_result. destruct (_ && _)%bool; [|intros ->; reflexivity].
  intros (t & -> & H). exists t. split; [reflexivity | exact H].
Qed.
Lemma shift_date sign t d n m : sign = 1 \/ sign = -1 -> is_datetime t -> instant t n -> has_total d m ->
  date_result (rmap VTime (dt_shift sign t d)) (n + sign * m * 1000000).
Proof.
  intros Hs Ht It Hd. apply is_datetime_valid in Ht. apply (instant_micros t n Ht) in It. subst n.
  apply has_total_tot in Hd as [Vd ->]. pose proof (dt_shift_spec sign t d Ht) as S. cbv zeta in S.
  destruct (_ && _)%bool eqn:E.
  - left. destruct S as (b & E1 & Vb & Db & Mb). exists b. rewrite E1. split; [reflexivity|]. split; [exact Db|].
    apply instant_micros; [exact Vb|]. rewrite Mb. ring.
  - right. rewrite S. split; [reflexivity|]. intros b nb Hb Ib Hn. apply is_datetime_valid in Hb.
    apply (instant_micros b nb Hb) in Ib. subst nb.
    assert (R : 1 <= dnum b <= MAXORDINAL).
    { destruct (vdt_vdate b Hb) as [D Y]. split; [apply (ord_pos _ _ _ D); lia|].
      pose proof (doy_bound _ _ _ D). pose proof (dby_mono (dt_year b + 1) 10000 ltac:(lia)) as M. rewrite dby_next in M.
      change (days_before_year 10000) with 3652059 in M. unfold dnum, ymd2ord, MAXORDINAL. lia. }
    pose proof (vdt_secs t Ht) as (A1 & A2 & _). pose proof (vdt_secs b Hb) as (B1 & B2 & _).
    unfold micros in Hn.
    assert (H : dnum b * 86400 + secs_of_day b = dnum t * 86400 + secs_of_day t + sign * tot d) by lia.
    rewrite <- H in E. rewrite Z.div_add_l, Z.div_small in E by lia. lia.
Qed.
Lemma whole_as_int v k : whole v k <-> as_int v = Some k.
Proof.
  unfold whole. split.
  - intros [-> | [[-> ->] | [-> ->]]]; reflexivity.
  - destruct v; cbn; intros H; try discriminate H; injection H as <-; [|left; reflexivity].
    destruct b; cbn; [right; left | right; right]; split; reflexivity.
Qed.

(** date + duration and duration + date; date - date; duration +, - duration; duration * whole number:
    by the totals and instants, OverflowError exactly when the result is out of range. *)
Theorem C96_arithmetic_partial d e t u nd ne nt nu v k :
  is_datetime d -> instant d nd -> is_datetime e -> instant e ne -> has_total t nt -> has_total u nu -> whole v k ->
  date_result (py_add (VTime d) (VDelta t)) (nd + nt * 1000000) /\
  date_result (py_add (VDelta t) (VTime d)) (nd + nt * 1000000) /\
  duration_result (py_add (VDelta t) (VDelta u)) (nt + nu) /\
  duration_result (py_sub (VTime d) (VTime e)) ((nd - ne) / 1000000) /\
  duration_result (py_sub (VDelta t) (VDelta u)) (nt - nu) /\
  duration_result (py_mul (VDelta t) v) (nt * k).
Proof.
  intros Hd Id He Ie Ht Hu Hv.
  pose proof (shift_date 1 d t nd nt (or_introl eq_refl) Hd Id Ht) as S. rewrite Z.mul_1_l in S.
  destruct (C26_arithmetic t u nt nu k Ht Hu) as (A1 & A2 & A3).
  split; [exact S|]. split; [exact S|]. split; [exact (td_result_duration _ _ A1)|].
  split; [|split; [exact (td_result_duration _ _ A2)|]].
  - unfold py_sub, binary, m_sub. destruct (C27_difference_floor d e nd ne Hd He Id Ie) as (w & E & T). rewrite E.
    unfold duration_result.
    pose proof T as T2. apply has_total_tot in T2 as [(V1 & V2 & V3) Tt]. unfold tot in Tt.
    replace (_ && _)%bool with true by (symmetry; apply andb_true_intro; split; [apply Z.leb_le | apply Z.ltb_lt]; lia).
    exists w. split; [reflexivity | exact T].
  - unfold py_mul, binary. apply whole_as_int in Hv.
    replace (m_mul (VDelta t) v) with (Gives (rmap VDelta (td_mul_int t k))); [exact (td_result_duration _ _ A3)|].
    destruct v; cbn in Hv; try discriminate Hv; injection Hv as <-; reflexivity.
Qed.
(** Every other pair with a date or a duration is a TypeError, except two: duration - date
    and duration * duration *)
Theorem C96_rejected a b :
  is_time a \/ is_delta a \/ is_time b \/ is_delta b ->
  (py_add a b = Err EType <->
     ~ (is_time a /\ is_delta b) /\ ~ (is_delta a /\ is_delta b) /\ ~ (is_delta a /\ is_time b)) /\
  (py_sub a b = Err EType <->
     ~ (is_time a /\ is_time b) /\ ~ (is_delta a /\ is_delta b) /\ ~ (is_delta a /\ is_time b)) /\
  (py_mul a b = Err EType <->
     ~ (is_delta a /\ is_delta b) /\ ~ (is_delta a /\ exists k, whole b k)).
Proof.
  intros H.
  assert (Nt : forall w x h m s, mk_timedelta w x h m s <> Err EType).
  { intros w x h m s. unfold mk_timedelta. destruct (_ && _)%bool; discriminate. }
  assert (Nd : forall g x y, dt_shift g x y <> Err EType).
  { intros g x y. unfold dt_shift. destruct (_ && _)%bool; [|discriminate]. destruct (ord2ymd _) as [[q q1] q2].
    unfold mk_datetime. destruct (negb _); [discriminate|]. destruct (datetime_valid _); discriminate. }
  assert (Rm : forall (A : Type) (f : A -> pyval) r, r <> Err EType -> rmap f r <> Err EType).
  { intros A f r Hr. destruct r as [x|x]; [discriminate|]. cbn. intros E. apply Hr. congruence. }
  unfold py_add, py_sub, py_mul, binary.
  destruct a, b; cbn [m_add m_sub m_mul as_int m_reflected];
    try (exfalso; destruct H as [[? E]|[[? E]|[[? E]|[? E]]]]; discriminate E);
    repeat split; try reflexivity;
    try (intros E; exfalso; revert E; apply Rm; first [apply Nt | apply Nd]; fail);
    try (intros (_ & H2 & H3); exfalso; first [apply H2; split; eexists; reflexivity | apply H3; split; eexists; reflexivity]; fail);
    try (intros (H1 & H2); exfalso; first [apply H1; split; eexists; reflexivity | apply H2; split; [eexists; reflexivity | eexists; apply whole_as_int; reflexivity]]; fail);
    try (intros (H1 & H2 & H3); exfalso; apply H1; split; eexists; reflexivity);
    try (intros [[? E1] [? E2]]; first [discriminate E1 | discriminate E2 | apply whole_as_int in E2; discriminate E2]);
    exfalso; match goal with E : rmap _ _ = Err EType |- _ => revert E end; apply Rm; first [apply Nt | apply Nd].
Qed.

(** Comparisons: by the instants, by the totals; anything else with a date or a duration is a TypeError *)
Theorem C96_comparison_partial o d e t u nd ne nt nu :
  is_datetime d -> instant d nd -> is_datetime e -> instant e ne -> has_total t nt -> has_total u nu ->
  py_cmp o (VTime d) (VTime e) = Ok (z_cmp o nd ne) /\
  py_cmp o (VDelta t) (VDelta u) = Ok (z_cmp o nt nu).
Proof.
  intros Hd Id He Ie Ht Hu. destruct (C25_order d e nd ne Hd He Id Ie) as (A1 & A2 & A3 & A4 & A5 & A6).
  destruct (C26_order t u nt nu Ht Hu) as (B1 & B2 & B3 & B4 & B5 & B6).
  unfold py_cmp. cbn [m_cmp]. destruct o; cbn [dt_cmp td_cmp z_cmp]; split; congruence.
Qed.
(** ** What is refuted: date - duration is always rejected, whatever the date and the duration, *)
Theorem C96_minus_duration_refuted d t : py_sub (VTime d) (VDelta t) = Err EType.
Proof. reflexivity. Qed.
(** and duration - date, which has no meaning, is the date that much earlier; *)
Theorem C96_duration_minus_date_refuted d t nd nt : is_datetime d -> instant d nd -> has_total t nt ->
  date_result (py_sub (VDelta t) (VTime d)) (nd - nt * 1000000).
Proof.
  intros Hd Id Ht. pose proof (shift_date (-1) d t nd nt (or_intror eq_refl) Hd Id Ht) as S.
  replace (nd + -1 * nt * 1000000) with (nd - nt * 1000000) in S by ring. exact S.
Qed.
(** a whole number times a duration is rejected, though the duration times the number is not; *)
Theorem C96_number_times_duration_refuted v k t : whole v k -> py_mul v (VDelta t) = Err EType.
Proof. intros [-> | [[-> _] | [-> _]]]; reflexivity. Qed.
(** == and != (like the order) with a value of another type raise instead of answering, on both sides; *)
Theorem C96_equality_refuted o v d t :
  (~ is_time v -> py_cmp o (VTime d) v = Err EType /\ py_cmp o v (VTime d) = Err EType) /\
  (~ is_delta v -> py_cmp o (VDelta t) v = Err EType /\ py_cmp o v (VDelta t) = Err EType).
Proof.
  split; intros H; destruct v; try (split; reflexivity); exfalso; apply H; eexists; reflexivity.
Qed.
(** so that looking for a date in a list answers only if no value of another type comes first *)
Theorem C96_in_list d l nd : is_datetime d -> instant d nd -> Forall (fun v => forall x, v = VTime x -> is_datetime x) l ->
  (py_in (VTime d) l = Ok true <-> exists l1 l2, l = map VTime l1 ++ VTime d :: l2) /\
  (py_in (VTime d) l = Ok false <-> exists l1, l = map VTime l1 /\ ~ In d l1) /\
  (py_in (VTime d) l = Err EType <-> exists l1 v l2, l = map VTime l1 ++ v :: l2 /\ ~ In d l1 /\ ~ is_time v).
Proof.
  intros Hd Id Hl. induction Hl as [|v l Hv Hl IH].
  - cbn [py_in]. split; [|split]; (split; [try discriminate|]).
    + intros (l1 & l2 & E). destruct l1; discriminate E.
    + intros _. exists []. split; [reflexivity | intros []].
    + reflexivity.
    + intros (l1 & w & l2 & E & _). destruct l1; discriminate E.
  - assert (Dec : (exists x, v = VTime x) \/ ~ is_time v).
    { destruct v; try (right; intros [? E]; discriminate E). left. eexists. reflexivity. }
    destruct Dec as [[x ->]|Nv].
    + pose proof (Hv x eq_refl) as Hx. destruct (C25_instant_unique d x nd 0 Hd Hx Id) as ([nx Ix] & _ & Hu).
      destruct (C96_comparison_partial OEq x d (mktd 0 0 0) (mktd 0 0 0) nx nd 0 0 Hx Ix Hd Id) as [C _];
        try (exists 0, 0, 0, 0, 0; split; reflexivity).
      cbn [py_in]. rewrite C. cbn [z_cmp]. destruct (Z.eqb_spec nx nd) as [E|E].
      * assert (x = d) by (symmetry; apply Hu; rewrite <- E; exact Ix). subst x.
        split; [|split]; (split; [try discriminate|]); try reflexivity.
        -- intros _. exists [], l. reflexivity.
        -- intros (l1 & E1 & N). destruct l1 as [|y l1]; [discriminate E1|]. injection E1 as <- _. exfalso. apply N. left. reflexivity.
        -- intros (l1 & w & l2 & E1 & N & Nw). destruct l1 as [|y l1]; cbn in E1; injection E1 as E1 _.
           ++ exfalso. apply Nw. exists d. congruence.
           ++ exfalso. apply N. left. congruence.
      * assert (Nx : x <> d).
        { intros ->. apply E. apply (C25_instant_unique d d nd nx Hd Hd Id). exact Ix. }
        destruct IH as (I1 & I2 & I3). rewrite I1, I2, I3. split; [|split]; split.
        -- intros (l1 & l2 & ->). exists (x :: l1), l2. reflexivity.
        -- intros (l1 & l2 & E1). destruct l1 as [|y l1]; cbn in E1; [congruence|]. injection E1 as _ E1. exists l1, l2. exact E1.
        -- intros (l1 & -> & N). exists (x :: l1). split; [reflexivity|]. intros [E1|E1]; [congruence | exact (N E1)].
        -- intros (l1 & E1 & N). destruct l1 as [|y l1]; cbn in E1; [discriminate E1|]. injection E1 as _ E1.
           exists l1. split; [exact E1|]. intros E2. apply N. right. exact E2.
        -- intros (l1 & w & l2 & -> & N & Nw). exists (x :: l1), w, l2. split; [reflexivity|]. split; [|exact Nw].
           intros [E1|E1]; [congruence | exact (N E1)].
        -- intros (l1 & w & l2 & E1 & N & Nw). destruct l1 as [|y l1]; cbn in E1; injection E1 as E0 E1.
           ++ exfalso. apply Nw. exists x. congruence.
           ++ exists l1, w, l2. split; [exact E1|]. split; [|exact Nw]. intros E2. apply N. right. exact E2.
    + cbn [py_in]. destruct (C96_equality_refuted OEq v d (mktd 0 0 0)) as [C _]. destruct (C Nv) as [_ C2]. rewrite C2.
      split; [|split]; (split; [try discriminate|]); try reflexivity.
      * intros (l1 & l2 & E1). exfalso. apply Nv. destruct l1 as [|y l1]; cbn in E1; injection E1 as E0 _; eexists; exact E0.
      * intros (l1 & E1 & _). exfalso. apply Nv. destruct l1 as [|y l1]; cbn in E1; [discriminate E1|]. injection E1 as E0 _; eexists; exact E0.
      * intros _. exists [], v, l. split; [reflexivity|]. split; [intros [] | exact Nv].
Qed.
(** Non-vacuous: a day from 1 March 2024; True times a day; a date after None in a list *)
Example C96_example : exists d t b,
  is_datetime d /\ has_total t 86400 /\ whole (VBool true) 1 /\
  py_sub (VDelta t) (VTime d) = Ok (VTime b) /\ dt_day b = 29 /\ dt_month b = 2 /\
  py_mul (VDelta t) (VBool true) = Ok (VDelta t) /\
  py_in (VTime d) [VNone; VTime d] = Err EType /\ py_in (VTime d) [VTime b; VTime d; VNone] = Ok true.
Proof.
  exists (mkdt 2024 3 1 0 0 0 0), (mktd 1 0 86400), (mkdt 2024 2 29 0 0 0 0).
  split; [apply (isdt 2024 3 1 0 0 0 0); vm_compute; reflexivity|].
  split; [exists 0, 1, 0, 0, 0; split; vm_compute; reflexivity|].
  split; [right; left; split; reflexivity|].
  repeat split; vm_compute; reflexivity.
Qed.
