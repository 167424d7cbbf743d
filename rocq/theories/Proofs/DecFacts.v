From Verif Require Import Model.Base Model.Dec Spec.DecSpec Proofs.BaseFacts.
Local Open Scope Z_scope.

(** ** Powers of ten *)
Lemma pow10_Z k : 0 <= k -> Z.of_N (pow10 k) = 10 ^ k.
Proof. intros H. unfold pow10. rewrite N2Z.inj_pow, Z2N.id by exact H. reflexivity. Qed.
Lemma pow10_pos k : (0 < pow10 k)%N.
Proof. unfold pow10. apply N.neq_0_lt_0, N.pow_nonzero. lia. Qed.
Lemma p10_pos k : 0 <= k -> 0 < 10 ^ k.
Proof. intros; apply Z.pow_pos_nonneg; lia. Qed.
Lemma p10_add a b : 0 <= a -> 0 <= b -> 10 ^ (a + b) = 10 ^ a * 10 ^ b.
Proof. intros; apply Z.pow_add_r; assumption. Qed.
Lemma p10_le a b : a <= b -> 10 ^ a <= 10 ^ b.
Proof. intros; apply Z.pow_le_mono_r; lia. Qed.
Lemma p10_split a b : 0 <= b <= a -> 10 ^ a = 10 ^ b * 10 ^ (a - b).
Proof. intros H. rewrite <- p10_add by lia. f_equal; lia. Qed.

(** digits *)
Lemma ndigits_bounds n : (0 < n)%N ->
  10 ^ (Z.of_nat (ndigits n) - 1) <= Z.of_N n < 10 ^ Z.of_nat (ndigits n).
Proof.
  intros Hn. pose proof (ndigits_lt n) as H1. pose proof (ndigits_ge n Hn) as H2.
  pose proof (ndigits_pos n) as Hp. split.
  - apply N2Z.inj_le in H2. rewrite N2Z.inj_pow, N2Z.inj_sub in H2 by lia.
    rewrite nat_N_Z in H2. exact H2.
  - apply N2Z.inj_lt in H1. rewrite N2Z.inj_pow, nat_N_Z in H1. exact H1.
Qed.
Lemma ndigits_le_Z n k : 0 < k -> (Z.of_nat (ndigits n) <= k <-> Z.of_N n < 10 ^ k).
Proof.
  intros Hk. replace k with (Z.of_nat (Z.to_nat k)) by lia.
  rewrite <- Nat2Z.inj_le, ndigits_le by lia.
  rewrite N2Z.inj_lt, N2Z.inj_pow, nat_N_Z. reflexivity.
Qed.
Lemma flen_pos d : 0 < flen d.
Proof. unfold flen. pose proof (ndigits_pos (fcoef d)). lia. Qed.
Lemma flen_bounds d : fcoef d <> 0%N -> 10 ^ (flen d - 1) <= Z.of_N (fcoef d) < 10 ^ flen d.
Proof. intros H. unfold flen. apply ndigits_bounds. lia. Qed.

Definition sg (neg : bool) (z : Z) : Z := if neg then - z else z.
Lemma scoef_sg d : scoef d = sg (fneg d) (Z.of_N (fcoef d)).
Proof. reflexivity. Qed.
Lemma sg_spec d : (if fneg d then -1 else 1) * Z.of_N (fcoef d) = scoef d.
Proof. unfold scoef; destruct (fneg d); lia. Qed.

Lemma is_zero_spec d : is_zero d = true <-> fcoef d = 0%N.
Proof. unfold is_zero. apply N.eqb_eq. Qed.
Lemma is_zero_false d : is_zero d = false <-> fcoef d <> 0%N.
Proof. unfold is_zero. apply N.eqb_neq. Qed.

(** rounding down *)
Lemma shift_floor_Z neg c k : 0 <= k -> sg neg (Z.of_N (shift_floor neg c k)) = sg neg (Z.of_N c) / 10 ^ k.
Proof.
  intros Hk. unfold shift_floor. pose proof (pow10_pos k) as Hp.
  set (P := pow10 k) in *.
  assert (HP : Z.of_N P = 10 ^ k) by (apply pow10_Z; exact Hk). rewrite <- HP.
  pose proof (N.div_mod c P ltac:(lia)) as Hdm.
  pose proof (N.mod_lt c P ltac:(lia)) as Hlt.
  destruct neg; cbn [andb sg].
  - destruct (N.eqb_spec (c mod P) 0) as [E|E]; cbn [negb].
    + apply (Z.div_unique_pos _ _ _ 0); lia.
    + apply (Z.div_unique_pos _ _ _ (Z.of_N P - Z.of_N (c mod P))); [lia|].
      apply N2Z.inj_iff in Hdm. rewrite N2Z.inj_add, N2Z.inj_mul in Hdm. lia.
  - apply N2Z.inj_div.
Qed.

Lemma floor_units_scoef d :
  floor_units d = if -30 <=? fexp d then scoef d * 10 ^ (fexp d + 30) else scoef d / 10 ^ (-30 - fexp d).
Proof. unfold floor_units. rewrite sg_spec. reflexivity. Qed.

(** If d, seen at exponent m <= -30, is y, then its floor is y / 10^(-30-m). *)
Lemma floor_units_at d m :
  m <= -30 -> m <= fexp d ->
  floor_units d = (scoef d * 10 ^ (fexp d - m)) / 10 ^ (-30 - m).
Proof.
  intros Hm He. rewrite floor_units_scoef. destruct (Z.leb_spec (-30) (fexp d)) as [H|H].
  - replace (fexp d - m) with ((fexp d + 30) + (-30 - m)) by lia.
    rewrite (p10_add (fexp d + 30) (-30 - m)), Z.mul_assoc, Z.div_mul by (try lia; pose proof (p10_pos (-30 - m)); lia).
    reflexivity.
  - replace (-30 - m) with ((fexp d - m) + (-30 - fexp d)) by lia.
    rewrite p10_add by lia.
    rewrite (Z.mul_comm (scoef d)).
    rewrite Z.div_mul_cancel_l; [reflexivity | |]; pose proof (p10_pos (-30 - fexp d)); pose proof (p10_pos (fexp d - m)); lia.
Qed.

Lemma rescale_up d e : fexp d < e -> fcoef d <> 0%N ->
  fneg (rescale d e) = fneg d /\ fexp (rescale d e) = e /\ scoef (rescale d e) = scoef d / 10 ^ (e - fexp d).
Proof.
  intros He Hz. unfold rescale. apply is_zero_false in Hz as Hz'. rewrite Hz'.
  destruct (Z.leb_spec e (fexp d)) as [H|_]; [lia|].
  destruct (Z.ltb_spec (flen d + fexp d - e) 0) as [Hd|Hd]; cbn [fneg fexp].
  - split; [reflexivity | split; [reflexivity|]].
    pose proof (flen_bounds d Hz) as HB.
    assert (10 ^ flen d <= 10 ^ (e - fexp d)) by (apply p10_le; lia).
    unfold scoef; cbn [fneg fcoef]. destruct (fneg d).
    + apply (Z.div_unique_pos _ _ _ (10 ^ (e - fexp d) - Z.of_N (fcoef d))); lia.
    + rewrite Z.div_small by lia. reflexivity.
  - split; [reflexivity | split; [reflexivity|]].
    rewrite scoef_sg; cbn [fneg fcoef]. rewrite shift_floor_Z by lia. reflexivity.
Qed.

(** _fix: the result is the argument rounded down at some exponent m *)
Lemma fix_ctx_spec d :
  flen d + fexp d <= 101 ->
  (exists d' m, fix_ctx d = Ok d' /\ fneg d' = fneg d /\
    (fcoef d = 0%N -> fcoef d' = 0%N /\ (-159 <= fexp d <= 100 -> d' = d)) /\
    (fcoef d <> 0%N ->
       m = Z.max (fexp d) (Z.max (flen d + fexp d - 60) (-159)) /\
       m <= fexp d' /\ scoef d' * 10 ^ (fexp d' - m) = scoef d / 10 ^ (m - fexp d) /\
       (m = fexp d -> d' = d) /\ fexp d' <= m + 1))
  \/ (fcoef d <> 0%N /\ fix_ctx d = Err EOverflow /\ flen d + fexp d = 101 /\ 60 < flen d).
Proof.
  intros Hov. unfold fix_ctx. destruct (is_zero d) eqn:Ez.
  - apply is_zero_spec in Ez. left. eexists; exists 0. split; [reflexivity|]. cbn.
    split; [reflexivity|]. split; [|contradiction]. intros _; split; [reflexivity|].
    intros Hr. destruct d as [n c e]; cbn in *; subst. f_equal. unfold ETINY, EMAX. lia.
  - apply is_zero_false in Ez. unfold ETOP, PREC, ETINY.
    destruct (Z.ltb_spec 41 (flen d + fexp d - 60)) as [|_]; [lia|].
    set (m := Z.max (flen d + fexp d - 60) (-159)).
    pose proof (flen_bounds d Ez) as HB.
    destruct (Z.ltb_spec (fexp d) m) as [Hm|Hm].
    + assert (Hco : sg (fneg d) (Z.of_N (if flen d + fexp d - m <? 0 then if fneg d then 1%N else 0%N
                      else shift_floor (fneg d) (fcoef d) (m - fexp d))) = scoef d / 10 ^ (m - fexp d)).
      { destruct (Z.ltb_spec (flen d + fexp d - m) 0) as [Hd|Hd].
        - assert (10 ^ flen d <= 10 ^ (m - fexp d)) by (apply p10_le; lia).
          rewrite scoef_sg. destruct (fneg d); cbn [sg].
          + apply (Z.div_unique_pos _ _ _ (10 ^ (m - fexp d) - Z.of_N (fcoef d))); lia.
          + rewrite Z.div_small by lia. reflexivity.
        - rewrite shift_floor_Z by lia. reflexivity. }
      set (coeff := if flen d + fexp d - m <? 0 then if fneg d then 1%N else 0%N
                      else shift_floor (fneg d) (fcoef d) (m - fexp d)) in *.
      (* the rounded coefficient is at most 10^60 *)
      assert (Hc60 : Z.of_N coeff <= 10 ^ 60).
      { assert (Hfl : Z.of_N (fcoef d) <= 10 ^ 60 * 10 ^ (m - fexp d)).
        { rewrite <- p10_add by lia. transitivity (10 ^ flen d); [lia|]. apply p10_le. lia. }
        pose proof (p10_pos (m - fexp d) ltac:(lia)) as Hpp.
        rewrite scoef_sg in Hco. destruct (fneg d); cbn [sg] in Hco.
        - assert (- 10 ^ 60 <= - Z.of_N (fcoef d) / 10 ^ (m - fexp d)); [|lia].
          apply Z.div_le_lower_bound; lia.
        - rewrite Hco. apply Z.div_le_upper_bound; lia. }
      destruct (Z.ltb_spec 60 (Z.of_nat (ndigits coeff))) as [Hnd|Hnd].
      * assert (Hceq : Z.of_N coeff = 10 ^ 60).
        { pose proof (ndigits_le_Z coeff 60 ltac:(lia)). lia. }
        destruct (Z.ltb_spec 41 (m + 1)) as [Ho|Ho].
        -- right. split; [exact Ez|]. split; [reflexivity|]. split; lia.
        -- left. exists (mkfd (fneg d) (coeff / 10) (m + 1)), m. split; [reflexivity|]. cbn [fneg fcoef fexp].
           split; [reflexivity|]. split; [contradiction|]. intros _.
           split; [lia|]. split; [lia|]. split; [|split; lia].
           rewrite scoef_sg; cbn [fneg fcoef]. rewrite <- Hco.
           replace (m + 1 - m) with 1 by lia.
           assert (HQ : Z.of_N (coeff / 10) = 10 ^ 59).
           { rewrite N2Z.inj_div. rewrite Hceq. reflexivity. }
           rewrite HQ, Hceq. destruct (fneg d); cbn [sg]; reflexivity.
      * destruct (Z.ltb_spec 41 m) as [Ho|Ho]; [lia|].
        left. exists (mkfd (fneg d) coeff m), m. split; [reflexivity|]. cbn [fneg fcoef fexp].
        split; [reflexivity|]. split; [contradiction|]. intros _.
        split; [lia|]. split; [lia|]. split; [|split; lia].
        rewrite scoef_sg; cbn [fneg fcoef]. rewrite Hco. rewrite Z.sub_diag, Z.mul_1_r. reflexivity.
    + left. exists d, (fexp d). split; [reflexivity|]. split; [reflexivity|]. split; [contradiction|].
      intros _. split; [lia|]. split; [lia|]. rewrite Z.sub_diag, Z.div_1_r, Z.mul_1_r.
      split; [reflexivity|]. split; [reflexivity | lia].
Qed.

Lemma fix_ctx_id d : flen d <= 60 -> -159 <= fexp d -> flen d + fexp d <= 101 -> fexp d <= 100 -> fix_ctx d = Ok d.
Proof.
  intros H1 H2 H3 H4. destruct (fix_ctx_spec d H3) as [(d' & m & Hf & _ & Hz & Hnz)|(_ & _ & _ & ?)]; [|lia].
  rewrite Hf. f_equal. destruct (N.eq_dec (fcoef d) 0) as [E|E].
  - apply Hz; [exact E | lia].
  - apply Hnz in E as (Hm & _ & _ & Hid & _). apply Hid. lia.
Qed.

Lemma strip_zeros_spec fuel c e :
  e <= EMAX -> (c <> 0)%N ->
  let '(c', e') := strip_zeros fuel c e in
  e <= e' <= EMAX /\ Z.of_N c' * 10 ^ (e' - e) = Z.of_N c /\ (c' <> 0)%N.
Proof.
  revert c e; induction fuel as [|f IH]; intros c e He Hc; cbn [strip_zeros].
  - rewrite Z.sub_diag, Z.mul_1_r. split; [lia | split; [reflexivity | exact Hc]].
  - destruct (N.eqb_spec (c mod 10) 0) as [Hm|Hm]; cbn [andb].
    + destruct (Z.ltb_spec e EMAX) as [Hlt|Hge].
      * pose proof (N.div_mod c 10 ltac:(lia)) as Hdm.
        specialize (IH (c / 10)%N (e + 1) ltac:(lia) ltac:(lia)).
        destruct (strip_zeros f (c / 10) (e + 1)) as [c' e']. destruct IH as (H1 & H2 & H3).
        split; [lia|]. split; [|exact H3].
        replace (e' - e) with ((e' - (e + 1)) + 1) by lia. rewrite p10_add by lia.
        rewrite Z.mul_assoc, H2. lia.
      * rewrite Z.sub_diag, Z.mul_1_r. split; [lia | split; [reflexivity | exact Hc]].
    + rewrite Z.sub_diag, Z.mul_1_r. split; [lia | split; [reflexivity | exact Hc]].
Qed.

(** Well-formed contract decimals *)
Definition cdwf (d : fd) : Prop :=
  exists n, has_units d n /\ - LIMU < n <= MAXU /\ (fcoef d = 0%N -> fexp d = 0) /\ fexp d <= 100.

Lemma has_units_scoef d n : has_units d n <-> -30 <= fexp d /\ n = scoef d * 10 ^ (fexp d + 30).
Proof. unfold has_units. rewrite sg_spec. reflexivity. Qed.
Lemma has_units_floor d n : has_units d n -> floor_units d = n.
Proof.
  rewrite has_units_scoef, floor_units_scoef. intros [H ->].
  destruct (Z.leb_spec (-30) (fexp d)); [reflexivity | lia].
Qed.
Lemma has_units_inj d n n' : has_units d n -> has_units d n' -> n = n'.
Proof. intros H H'. apply has_units_floor in H, H'. congruence. Qed.

(** normalize of a value at exponent -30 with at most 60 digits *)
Lemma normalize_spec d :
  fexp d = -30 -> Z.of_N (fcoef d) < LIMU ->
  exists d', normalize d = Ok d' /\ fneg d' = fneg d /\ has_units d' (scoef d) /\
             (fcoef d' = 0%N -> fexp d' = 0) /\ fexp d' <= 100 /\ (fcoef d' = 0%N <-> fcoef d = 0%N).
Proof.
  intros He Hc. unfold normalize.
  assert (Hl : flen d <= 60) by (apply ndigits_le_Z; [lia | exact Hc]).
  rewrite fix_ctx_id by (pose proof (flen_pos d); lia). cbn [bindr].
  destruct (is_zero d) eqn:Ez.
  - apply is_zero_spec in Ez. eexists; split; [reflexivity|]. cbn.
    split; [reflexivity|]. split; [|split; [reflexivity | split; [lia | tauto]]].
    unfold has_units, scoef; cbn. rewrite Ez. split; [lia|]. destruct (fneg d); reflexivity.
  - apply is_zero_false in Ez.
    pose proof (strip_zeros_spec (ndigits (fcoef d)) (fcoef d) (fexp d)) as S.
    destruct (strip_zeros _ _ _) as [c' e']. unfold EMAX in S.
    destruct S as (S1 & S2 & S3); [lia | exact Ez|].
    eexists; split; [reflexivity|]. cbn [fneg fcoef fexp].
    split; [reflexivity|]. split; [|split; [contradiction | split; [lia | tauto]]].
    apply has_units_scoef. cbn [fexp]. split; [lia|].
    rewrite !scoef_sg; cbn [fneg fcoef]. rewrite <- S2.
    replace (e' - fexp d) with (e' + 30) by lia. destruct (fneg d); cbn [sg]; lia.
Qed.

Lemma MAX_has_units : has_units MAX_DECIMAL MAXU.
Proof. split; [cbn; lia | reflexivity]. Qed.

(** comparison is comparison of values *)
Lemma fd_compare_at a b m :
  m <= fexp a -> m <= fexp b ->
  fd_compare a b = (scoef a * 10 ^ (fexp a - m) ?= scoef b * 10 ^ (fexp b - m)).
Proof.
  intros Ha Hb. unfold fd_compare.
  set (k := Z.min (fexp a) (fexp b)).
  rewrite !pow10_Z by lia.
  replace (fexp a - m) with ((fexp a - k) + (k - m)) by lia.
  replace (fexp b - m) with ((fexp b - k) + (k - m)) by lia.
  rewrite !p10_add, !Z.mul_assoc by lia.
  rewrite <- Zmult_compare_compat_r; [reflexivity|]. pose proof (p10_pos (k - m)); lia.
Qed.

Lemma compare_units a b na nb : has_units a na -> has_units b nb -> fd_compare a b = (na ?= nb).
Proof.
  rewrite !has_units_scoef. intros [Ha ->] [Hb ->].
  rewrite (fd_compare_at a b (-30)) by assumption. reflexivity.
Qed.

(** ** fix_precision = store (floor_units d) *)
Lemma fix_precision_spec d :
  match store (floor_units d) with
  | Ok n => exists d', fix_precision (DFin d) = Ok d' /\ has_units d' n /\ cdwf d'
             /\ (fcoef d' = 0%N -> fneg d' = fneg d)
  | Err e => fix_precision (DFin d) = Err e
  end.
Proof.
  unfold fix_precision, fd_ltb.
  set (m := Z.min (-30) (fexp d)).
  rewrite (fd_compare_at MAX_DECIMAL d m) by (cbn; lia).
  assert (Hfu : floor_units d = (scoef d * 10 ^ (fexp d - m)) / 10 ^ (-30 - m)) by (apply floor_units_at; lia).
  set (y := scoef d * 10 ^ (fexp d - m)) in *.
  assert (HM : scoef MAX_DECIMAL * 10 ^ (fexp MAX_DECIMAL - m) = MAXU * 10 ^ (-30 - m)).
  { change (scoef MAX_DECIMAL) with (10 ^ 29). change (fexp MAX_DECIMAL) with 0. unfold MAXU.
    rewrite <- !p10_add by lia. f_equal; lia. }
  rewrite HM. pose proof (p10_pos (-30 - m) ltac:(lia)) as Hp.
  destruct (Z.compare_spec (MAXU * 10 ^ (-30 - m)) y) as [Heq|Hlt|Hgt].
  2: { (* clamp *)
    assert (MAXU <= floor_units d) by (rewrite Hfu; apply Z.div_le_lower_bound; lia).
    assert (store (floor_units d) = Ok MAXU) as ->.
    { unfold store. destruct (Z.ltb_spec MAXU (floor_units d)); [reflexivity|].
      destruct (Z.leb_spec (floor_units d) (- LIMU)) as [Hx|_]; [unfold MAXU, LIMU in *; lia|].
      f_equal; lia. }
    exists MAX_DECIMAL. split; [reflexivity|]. split; [exact MAX_has_units|]. split; [|cbn; discriminate].
    exists MAXU. split; [exact MAX_has_units|]. split; [unfold MAXU, LIMU; lia|]. cbn. split; [discriminate | lia]. }
  all: assert (Hle : y <= MAXU * 10 ^ (-30 - m)) by lia; clear Heq || clear Hgt.
  all: assert (Hfle : floor_units d <= MAXU) by (rewrite Hfu; apply Z.div_le_upper_bound; lia).
  all: unfold store; destruct (Z.ltb_spec MAXU (floor_units d)) as [|_]; [lia|].
  all: unfold quantize, EMAX, PREC, MIN_EXP.
  all: destruct (is_zero d) eqn:Ez;
    [ apply is_zero_spec in Ez;
      assert (Hs0 : scoef d = 0) by (unfold scoef; rewrite Ez; destruct (fneg d); reflexivity);
      assert (Hf0 : floor_units d = 0) by (rewrite Hfu; unfold y; rewrite Hs0; reflexivity);
      rewrite Hf0; destruct (Z.leb_spec 0 (- LIMU)) as [Hx|_]; [unfold LIMU in Hx; lia|];
      rewrite fix_ctx_id by (vm_compute; discriminate); cbn [bindr];
      destruct (normalize_spec (mkfd (fneg d) 0 (-30))) as (d' & Hn & Hsg & Hu & Hze & Hx & Hzz); [reflexivity | reflexivity |];
      exists d'; split; [exact Hn|];
      assert (Hu0 : has_units d' 0) by (replace 0 with (scoef (mkfd (fneg d) 0 (-30))) by (unfold scoef; cbn; destruct (fneg d); reflexivity); exact Hu);
      split; [exact Hu0|]; split; [exists 0; split; [exact Hu0 | split; [unfold LIMU, MAXU; lia | split; [exact Hze | exact Hx]]] | intros _; exact Hsg]
    | apply is_zero_false in Ez ].
  all: pose proof (flen_bounds d Ez) as HB; unfold adjusted.
  all: assert (Hbig : 30 <= fexp d + flen d - 1 -> floor_units d <= - LIMU).
  all: try (intros Hadj;
    assert (Hy : 10 ^ 60 * 10 ^ (-30 - m) <= Z.abs y);
    [ unfold y; rewrite Z.abs_mul, (Z.abs_eq (10 ^ (fexp d - m))) by (pose proof (p10_pos (fexp d - m)); lia);
      transitivity (10 ^ (flen d - 1) * 10 ^ (fexp d - m));
      [ rewrite <- !p10_add by (pose proof (flen_pos d); lia); apply p10_le; lia
      | apply Z.mul_le_mono_nonneg_r; [pose proof (p10_pos (fexp d - m)); lia|];
        unfold scoef; destruct (fneg d); lia ]
    | assert (y <= - (10 ^ 60 * 10 ^ (-30 - m))) by (unfold MAXU in Hle; assert (10 ^ 59 * 10 ^ (-30 - m) < 10 ^ 60 * 10 ^ (-30 - m)) by (apply Z.mul_lt_mono_pos_r; lia); lia);
      rewrite Hfu; unfold LIMU; apply Z.div_le_upper_bound; lia ]).
  all: destruct (Z.ltb_spec 100 (fexp d + flen d - 1)) as [Hadj|Hadj];
    [ destruct (Z.leb_spec (floor_units d) (- LIMU)) as [_|Hc]; [reflexivity | specialize (Hbig ltac:(lia)); lia] |].
  all: destruct (Z.ltb_spec 60 (fexp d + flen d - 1 - -30 + 1)) as [Had2|Had2];
    [ destruct (Z.leb_spec (floor_units d) (- LIMU)) as [_|Hc]; [reflexivity | specialize (Hbig ltac:(lia)); lia] |].
  all: clear Hbig.
  all: assert (Hr : fneg (rescale d (-30)) = fneg d /\ fexp (rescale d (-30)) = -30 /\ scoef (rescale d (-30)) = floor_units d);
    [ destruct (Z.le_gt_cases (-30) (fexp d)) as [He|He];
      [ unfold rescale; rewrite (proj2 (is_zero_false d) Ez); destruct (Z.leb_spec (-30) (fexp d)) as [_|]; [|lia];
        cbn [fneg fexp]; split; [reflexivity | split; [reflexivity|]];
        rewrite floor_units_scoef; destruct (Z.leb_spec (-30) (fexp d)) as [_|]; [|lia];
        rewrite !scoef_sg; cbn [fneg fcoef]; rewrite N2Z.inj_mul, pow10_Z by lia;
        replace (fexp d - -30) with (fexp d + 30) by lia; destruct (fneg d); cbn [sg]; lia
      | destruct (rescale_up d (-30) ltac:(lia) Ez) as (R1 & R2 & R3); split; [exact R1 | split; [exact R2|]];
        rewrite R3, floor_units_scoef; destruct (Z.leb_spec (-30) (fexp d)) as [|_]; [lia | reflexivity] ]
    | destruct Hr as (Hrn & Hre & Hrs) ].
  all: set (a := rescale d (-30)) in *; rewrite Hre.
  all: assert (Habs : Z.of_N (fcoef a) = Z.abs (floor_units d)) by (rewrite <- Hrs; unfold scoef; destruct (fneg a); lia).
  all: assert (Hlen : 60 < flen a <-> floor_units d <= - LIMU)
    by (pose proof (ndigits_le_Z (fcoef a) 60 ltac:(lia)) as HH; fold (flen a) in HH; unfold LIMU, MAXU in *; lia).
  all: assert (Hcb : Z.of_N (fcoef a) <= 10 ^ 60);
    [ assert (HHH : Z.of_N (fcoef d) * 10 ^ (fexp d - m) <= 10 ^ 60 * 10 ^ (-30 - m));
      [ transitivity (10 ^ flen d * 10 ^ (fexp d - m));
        [ apply Z.mul_le_mono_nonneg_r; [pose proof (p10_pos (fexp d - m)); lia | lia]
        | rewrite <- !p10_add by (pose proof (flen_pos d); lia); apply p10_le; lia ]
      | assert (- (10 ^ 60) <= floor_units d);
        [ rewrite Hfu; apply Z.div_le_lower_bound; [lia|]; unfold y, scoef; destruct (fneg d); lia
        | unfold MAXU in Hfle; lia ] ]
    |].
  all: assert (Hl61 : flen a <= 61) by (unfold flen; apply ndigits_le_Z; [lia|]; eapply Z.le_lt_trans; [exact Hcb|]; lia).
  all: destruct (Z.ltb_spec 100 (-30 + flen a - 1)) as [|_]; [lia|].
  all: destruct (Z.ltb_spec 60 (flen a)) as [H60|H60];
    [ destruct (Z.leb_spec (floor_units d) (- LIMU)) as [_|Hc]; [reflexivity | apply Hlen in H60; lia] |].
  all: assert (Hnl : ~ floor_units d <= - LIMU) by (rewrite <- Hlen; lia).
  all: destruct (Z.leb_spec (floor_units d) (- LIMU)) as [|_]; [contradiction|].
  all: rewrite fix_ctx_id by (pose proof (flen_pos a); lia); cbn [bindr].
  all: destruct (normalize_spec a) as (d' & Hn & Hsg & Hu & Hze & Hx & Hzz);
    [exact Hre | rewrite Habs; unfold LIMU, MAXU in *; lia |].
  all: rewrite Hrs in Hu; exists d'; split; [exact Hn|]; split; [exact Hu|];
    split; [exists (floor_units d); split; [exact Hu | split; [lia | split; [exact Hze | exact Hx]]] | intros _; congruence].
Qed.
