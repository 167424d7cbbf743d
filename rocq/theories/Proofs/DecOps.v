From Verif Require Import Model.Base Model.Dec Spec.DecSpec Proofs.BaseFacts Proofs.DecFacts.
Local Open Scope Z_scope.

(** The strengthened agreement relation used in proofs. *)
Definition stores (r : result fd) (s : result Z) : Prop :=
  match s with
  | Ok n => exists d, r = Ok d /\ has_units d n /\ cdwf d
  | Err e => r = Err e
  end.
Lemma stores_agrees r s : stores r s -> agrees r s.
Proof. destruct s as [n|e]; cbn; [intros (d & -> & H & _); exact H | intros ->; reflexivity]. Qed.
Lemma stores_wf r s d : stores r s -> r = Ok d -> cdwf d.
Proof. destruct s as [n|e]; cbn; [intros (d' & -> & _ & H); congruence | congruence]. Qed.

Lemma fix_precision_stores d : stores (fix_precision (DFin d)) (store (floor_units d)).
Proof.
  pose proof (fix_precision_spec d) as H. unfold stores. destruct (store (floor_units d)) as [n|e]; [|exact H].
  destruct H as (d' & H1 & H2 & H3 & _). exists d'. auto.
Qed.
Lemma store_range n : - LIMU < n <= MAXU -> store n = Ok n.
Proof.
  intros H. unfold store. destruct (Z.ltb_spec MAXU n); [lia|]. destruct (Z.leb_spec n (- LIMU)); [lia | reflexivity].
Qed.
Lemma store_Ok n m : store n = Ok m -> - LIMU < m <= MAXU /\ m = Z.min n MAXU.
Proof.
  unfold store. destruct (Z.ltb_spec MAXU n).
  - intros E; injection E as <-. unfold LIMU, MAXU in *; lia.
  - destruct (Z.leb_spec n (- LIMU)); [discriminate|]. intros E; injection E as <-. lia.
Qed.
Lemma store_idem n m : store n = Ok m -> store m = Ok m.
Proof. intros H. apply store_range. apply (store_Ok n m H). Qed.

(** The constructor applied to an already fixed decimal changes nothing numerically *)
Lemma cd_of_fd_stores d n : has_units d n -> stores (cd_of_fd d) (store n).
Proof. intros H. unfold cd_of_fd. rewrite <- (has_units_floor d n H). apply fix_precision_stores. Qed.

Lemma fixed_twice d : stores (do y <- fix_precision (DFin d); cd_of_fd y) (store (floor_units d)).
Proof.
  pose proof (fix_precision_stores d) as H. unfold stores in H.
  destruct (store (floor_units d)) as [n|e] eqn:E.
  - destruct H as (d' & -> & Hu & _). cbn [bindr]. rewrite <- (store_idem _ _ E).
    apply cd_of_fd_stores; exact Hu.
  - rewrite H. reflexivity.
Qed.

(** Rounding to 60 digits first does not change what is stored. *)
Lemma store_big n n' : (MAXU <= n /\ MAXU <= n') \/ (n <= - LIMU /\ n' <= - LIMU) \/ n = n' -> store n = store n'.
Proof.
  intros H. unfold store. destruct (Z.ltb_spec MAXU n), (Z.ltb_spec MAXU n'),
    (Z.leb_spec n (- LIMU)), (Z.leb_spec n' (- LIMU)); try reflexivity; try (unfold MAXU, LIMU in *; exfalso; lia);
    f_equal; lia.
Qed.

Lemma floor_units_rounded d d' m :
  fcoef d <> 0%N ->
  m = Z.max (fexp d) (Z.max (flen d + fexp d - 60) (-159)) ->
  m <= fexp d' -> scoef d' * 10 ^ (fexp d' - m) = scoef d / 10 ^ (m - fexp d) ->
  store (floor_units d') = store (floor_units d).
Proof.
  intros Hz Hm Hle Heq. pose proof (flen_bounds d Hz) as HB. pose proof (flen_pos d) as Hfp.
  apply store_big. destruct (Z.le_gt_cases m (-30)) as [Hs|Hb].
  - right; right. rewrite (floor_units_at d' m), Heq by lia.
    rewrite (floor_units_at d (fexp d)) by lia. rewrite Z.sub_diag, Z.mul_1_r.
    rewrite Z.div_div by (pose proof (p10_pos (m - fexp d)); pose proof (p10_pos (-30 - m)); lia).
    rewrite <- p10_add by lia. f_equal. f_equal. lia.
  - (* huge magnitude, or exact at an exponent above -30 *)
    destruct (Z.eq_dec m (fexp d)) as [Em|Em].
    + right; right. rewrite !floor_units_scoef.
      destruct (Z.leb_spec (-30) (fexp d')) as [_|Hx30]; [|exfalso; clear - Hx30 Hle Hb; lia].
      destruct (Z.leb_spec (-30) (fexp d)) as [_|]; [|lia].
      rewrite Em, Z.sub_diag, Z.div_1_r in Heq. rewrite <- Heq.
      rewrite <- Z.mul_assoc, <- p10_add by lia. f_equal. f_equal. lia.
    + assert (H31 : 31 <= flen d + fexp d) by lia.
      assert (Hd' : floor_units d' = (scoef d / 10 ^ (m - fexp d)) * 10 ^ (m + 30)).
      { rewrite floor_units_scoef. destruct (Z.leb_spec (-30) (fexp d')) as [_|]; [|lia].
        rewrite <- Heq, <- Z.mul_assoc, <- p10_add by lia. f_equal. f_equal. lia. }
      assert (Hpm : 0 < 10 ^ (m + 30)) by (apply p10_pos; lia).
      assert (Hlow : 10 ^ (flen d - 1) >= 10 ^ (59) * 10 ^ (m - fexp d)).
      { rewrite <- p10_add by lia. apply Z.le_ge, p10_le. lia. }
      assert (Hp59 : 10 ^ 60 <= 10 ^ 59 * 10 ^ (m + 30)).
      { rewrite <- p10_add by lia. apply p10_le. lia. }
      pose proof (p10_pos (m - fexp d) ltac:(lia)) as Hpk.
      assert (Hfd : 10 ^ 60 <= Z.abs (floor_units d) /\ (floor_units d < 0 <-> fneg d = true)).
      { rewrite floor_units_scoef. destruct (Z.leb_spec (-30) (fexp d)) as [He|He].
        - pose proof (p10_pos (fexp d + 30) ltac:(lia)) as Hq.
          assert (10 ^ 60 <= Z.of_N (fcoef d) * 10 ^ (fexp d + 30)).
          { transitivity (10 ^ (flen d - 1) * 10 ^ (fexp d + 30)); [|apply Z.mul_le_mono_nonneg_r; lia].
            rewrite <- p10_add by lia. apply p10_le; lia. }
          unfold scoef. destruct (fneg d); split; try lia.
        - pose proof (p10_pos (-30 - fexp d) ltac:(lia)) as Hq.
          assert (10 ^ 60 * 10 ^ (-30 - fexp d) <= Z.of_N (fcoef d)).
          { transitivity (10 ^ (flen d - 1)); [|lia]. rewrite <- p10_add by lia. apply p10_le; lia. }
          unfold scoef. destruct (fneg d).
          + assert (- Z.of_N (fcoef d) / 10 ^ (-30 - fexp d) <= - 10 ^ 60) by (apply Z.div_le_upper_bound; lia).
            split; lia.
          + assert (10 ^ 60 <= Z.of_N (fcoef d) / 10 ^ (-30 - fexp d)) by (apply Z.div_le_lower_bound; lia).
            split; lia. }
      destruct Hfd as [Hfd Hsn]. unfold scoef in Hd'. destruct (fneg d).
      * right; left. assert (floor_units d < 0) by (apply Hsn; reflexivity). split; [|unfold LIMU; lia].
        assert (- Z.of_N (fcoef d) / 10 ^ (m - fexp d) <= - 10 ^ 59) by (apply Z.div_le_upper_bound; lia).
        rewrite Hd'. unfold LIMU. pose proof (Z.mul_le_mono_nonneg_r _ _ (10 ^ (m + 30)) (Z.lt_le_incl _ _ Hpm) H0). lia.
      * left. assert (10 ^ 59 <= Z.of_N (fcoef d) / 10 ^ (m - fexp d)) by (apply Z.div_le_lower_bound; lia).
        rewrite Hd'. unfold MAXU.
        assert (~ floor_units d < 0) by (rewrite Hsn; discriminate).
        pose proof (Z.mul_le_mono_nonneg_r _ _ (10 ^ (m + 30)) (Z.lt_le_incl _ _ Hpm) H). lia.
Qed.

Lemma floor_units_zero d : fcoef d = 0%N -> floor_units d = 0.
Proof.
  intros H. rewrite floor_units_scoef. unfold scoef. rewrite H.
  destruct (fneg d), (-30 <=? fexp d); reflexivity.
Qed.

Lemma wrap_fix d : flen d + fexp d <= 100 -> stores (wrap (fix_ctx d)) (store (floor_units d)).
Proof.
  intros H. destruct (fix_ctx_spec d ltac:(lia)) as [(d' & m & Hf & _ & Hz & Hnz)|(_ & _ & ? & _)]; [|lia].
  unfold wrap. rewrite Hf. cbn [bindr].
  replace (store (floor_units d)) with (store (floor_units d')); [apply fixed_twice|].
  destruct (N.eq_dec (fcoef d) 0) as [E|E].
  - destruct (Hz E) as [Hz' _]. rewrite !floor_units_zero by assumption. reflexivity.
  - destruct (Hnz E) as (Hm & Hle & Heq & _). eapply floor_units_rounded; eassumption.
Qed.

(** size of a well-formed decimal *)
Lemma cdwf_size d : cdwf d -> flen d + fexp d <= 31 /\ -30 <= fexp d.
Proof.
  intros (n & Hu & Hr & Hz & He). apply has_units_scoef in Hu as [Hge Hn]. split; [|exact Hge].
  destruct (N.eq_dec (fcoef d) 0) as [E|E].
  - rewrite (Hz E). unfold flen. rewrite E. vm_compute. discriminate.
  - pose proof (flen_bounds d E) as HB. pose proof (flen_pos d).
    destruct (Z.le_gt_cases (flen d + fexp d) 31) as [|Hg]; [assumption|exfalso].
    assert (10 ^ 60 <= Z.abs n).
    { rewrite Hn, Z.abs_mul, (Z.abs_eq (10 ^ (fexp d + 30))) by (pose proof (p10_pos (fexp d + 30)); lia).
      transitivity (10 ^ (flen d - 1) * 10 ^ (fexp d + 30)).
      - rewrite <- p10_add by lia. apply p10_le; lia.
      - apply Z.mul_le_mono_nonneg_r; [pose proof (p10_pos (fexp d + 30)); lia|]. unfold scoef; destruct (fneg d); lia. }
    unfold LIMU, MAXU in Hr. lia.
Qed.

Lemma fd_of_Z_scoef b n e : scoef (fd_of_Z b n e) = n /\ fexp (fd_of_Z b n e) = e.
Proof.
  unfold fd_of_Z. destruct (Z.eqb_spec n 0) as [->|Hn].
  - unfold scoef; cbn. destruct b; split; reflexivity.
  - split; [|reflexivity]. unfold scoef; cbn. destruct (Z.ltb_spec n 0); rewrite N2Z.inj_abs_N; lia.
Qed.
Lemma flen_lt d k : 0 < k -> Z.abs (scoef d) < 10 ^ k -> flen d <= k.
Proof.
  intros Hk H. unfold flen. apply ndigits_le_Z; [exact Hk|]. unfold scoef in H; destruct (fneg d); lia.
Qed.

Lemma fd_flip_units a n : has_units a n -> has_units (fd_flip a) (- n).
Proof.
  rewrite !has_units_scoef. cbn [fd_flip fexp]. intros [H ->]. split; [exact H|].
  unfold scoef; cbn [fd_flip fneg fcoef]. destruct (fneg a); cbn [negb]; lia.
Qed.

Lemma flen_flip a : flen (fd_flip a) = flen a. Proof. reflexivity. Qed.

(** A slightly larger class closed under negation, enough for the size bounds *)
Definition okfd (d : fd) : Prop :=
  exists n, has_units d n /\ Z.abs n < LIMU /\ (fcoef d = 0%N -> fexp d = 0) /\ fexp d <= 100.
Lemma cdwf_okfd d : cdwf d -> okfd d.
Proof. intros (n & H & Hr & Hz). exists n. split; [exact H|]. split; [unfold LIMU, MAXU in *; lia | exact Hz]. Qed.
Lemma okfd_flip d : okfd d -> okfd (fd_flip d).
Proof.
  intros (n & H & Hr & Hz). exists (- n). split; [apply fd_flip_units; exact H|]. split; [lia | exact Hz].
Qed.
Lemma okfd_size d : okfd d -> flen d + fexp d <= 31 /\ -30 <= fexp d.
Proof.
  intros (n & Hu & Hr & Hz & He). destruct (fneg d) eqn:En.
  - apply (cdwf_size d). exists n. split; [exact Hu|]. split; [|split; assumption].
    apply has_units_scoef in Hu as [Hge Hn]. pose proof (p10_pos (fexp d + 30) ltac:(lia)).
    unfold scoef in Hn. rewrite En in Hn. unfold LIMU, MAXU in *. nia.
  - pose proof (cdwf_size (fd_flip d)) as S. rewrite flen_flip in S. cbn [fd_flip fexp] in S. apply S.
    exists (- n). split; [apply fd_flip_units; exact Hu|]. split; [|split; assumption].
    apply has_units_scoef in Hu as [Hge Hn]. pose proof (p10_pos (fexp d + 30) ltac:(lia)).
    unfold scoef in Hn. rewrite En in Hn. unfold LIMU, MAXU in *. nia.
Qed.

Lemma fd_add_stores a b na nb :
  okfd a -> okfd b -> has_units a na -> has_units b nb -> stores (wrap (fd_add a b)) (store (na + nb)).
Proof.
  intros Ha Hb Hna Hnb. unfold fd_add.
  set (e := Z.min (fexp a) (fexp b)).
  set (z := scoef a * Z.of_N (pow10 (fexp a - e)) + scoef b * Z.of_N (pow10 (fexp b - e))).
  destruct (okfd_size a Ha) as [Hla Hea]. destruct (okfd_size b Hb) as [Hlb Heb].
  pose proof (flen_pos a) as Hfa.
  destruct Ha as (na' & Hna' & Hra & _ & Hea'). destruct Hb as (nb' & Hnb' & Hrb & _ & Heb').
  assert (na' = na) by (eapply has_units_inj; eassumption); subst na'.
  assert (nb' = nb) by (eapply has_units_inj; eassumption); subst nb'.
  apply has_units_scoef in Hna as [_ Hna]. apply has_units_scoef in Hnb as [_ Hnb].
  assert (Hz : z * 10 ^ (e + 30) = na + nb).
  { unfold z. rewrite !pow10_Z by lia. rewrite Hna, Hnb, Z.mul_add_distr_r, <- !Z.mul_assoc, <- !p10_add by lia.
    f_equal; f_equal; f_equal; lia. }
  destruct (fd_of_Z_scoef (if xorb (fneg a) (fneg b) then true else fneg a) z e) as [Hs He].
  set (d := fd_of_Z _ z e) in *.
  assert (Hab : Z.abs z * 10 ^ (e + 30) < 10 ^ 61).
  { replace (Z.abs z * 10 ^ (e + 30)) with (Z.abs (na + nb))
      by (rewrite <- Hz, Z.abs_mul, (Z.abs_eq (10 ^ _)); [lia | pose proof (p10_pos (e + 30)); lia]).
    unfold LIMU, MAXU in *. lia. }
  pose proof (p10_pos (e + 30) ltac:(lia)) as Hpe.
  replace (na + nb) with (floor_units d).
  - apply wrap_fix. rewrite He.
    destruct (Z.le_gt_cases (61 - (e + 30)) 0) as [Hc|Hc].
    + assert (z = 0) as Z0.
      { assert (10 ^ 61 <= 10 ^ (e + 30)) by (apply p10_le; lia). nia. }
      assert (flen d <= 1) by (apply flen_lt; [lia | rewrite Hs, Z0; reflexivity]). lia.
    + assert (flen d <= 61 - (e + 30)); [|lia].
      apply flen_lt; [lia|]. rewrite Hs.
      assert (Z.abs z * 10 ^ (e + 30) < 10 ^ (61 - (e + 30)) * 10 ^ (e + 30)); [|nia].
      rewrite <- p10_add by lia. replace (61 - (e + 30) + (e + 30)) with 61 by lia. exact Hab.
  - rewrite floor_units_scoef, Hs, He. destruct (Z.leb_spec (-30) e); lia.
Qed.

Lemma cd_add_stores a b na nb :
  cdwf a -> cdwf b -> has_units a na -> has_units b nb -> stores (cd_add a b) (store (na + nb)).
Proof. intros Ha Hb. apply fd_add_stores; apply cdwf_okfd; assumption. Qed.
Lemma cd_sub_stores a b na nb :
  cdwf a -> cdwf b -> has_units a na -> has_units b nb -> stores (cd_sub a b) (store (na - nb)).
Proof.
  intros Ha Hb Hna Hnb. unfold cd_sub, fd_sub. replace (na - nb) with (na + - nb) by lia.
  apply fd_add_stores; [apply cdwf_okfd; exact Ha | apply okfd_flip, cdwf_okfd; exact Hb | exact Hna | apply fd_flip_units; exact Hnb].
Qed.

(** ** Multiplication *)
Lemma flen_mul a b s e : 
  flen (mkfd s (fcoef a * fcoef b) e) <= flen a + flen b.
Proof.
  pose proof (flen_pos a); pose proof (flen_pos b).
  unfold flen at 1; cbn [fcoef]. apply ndigits_le_Z; [lia|]. rewrite N2Z.inj_mul, p10_add by lia.
  pose proof (ndigits_le_Z (fcoef a) (flen a) ltac:(lia)) as [H1 _].
  pose proof (ndigits_le_Z (fcoef b) (flen b) ltac:(lia)) as [H2 _].
  specialize (H1 ltac:(unfold flen; lia)). specialize (H2 ltac:(unfold flen; lia)). nia.
Qed.

Lemma cd_mul_stores a b na nb :
  cdwf a -> cdwf b -> has_units a na -> has_units b nb -> stores (cd_mul a b) (store (na * nb / ONE)).
Proof.
  intros Ha Hb Hna Hnb. unfold cd_mul, fd_mul.
  destruct (cdwf_size a Ha) as [Hla Hea]. destruct (cdwf_size b Hb) as [Hlb Heb].
  set (d := mkfd _ _ _).
  assert (Hs : scoef d = scoef a * scoef b).
  { unfold d, scoef; cbn [fneg fcoef]. rewrite N2Z.inj_mul. destruct (fneg a), (fneg b); cbn [xorb]; lia. }
  replace (na * nb / ONE) with (floor_units d).
  - apply wrap_fix. pose proof (flen_mul a b (xorb (fneg a) (fneg b)) (fexp a + fexp b)). unfold d; cbn [fexp]. lia.
  - apply has_units_scoef in Hna as [_ ->]. apply has_units_scoef in Hnb as [_ ->].
    rewrite (floor_units_at d (-60)) by (cbn [d fexp]; lia). rewrite Hs. cbn [d fexp].
    unfold ONE. replace (-30 - -60) with 30 by lia. f_equal.
    replace (fexp a + fexp b - -60) with ((fexp a + 30) + (fexp b + 30)) by lia.
    rewrite p10_add by lia. ring.
Qed.

(** ** Negation and absolute value *)
Lemma cd_neg_stores a n : cdwf a -> has_units a n -> stores (cd_neg a) (store (- n)).
Proof.
  intros Ha Hn. unfold cd_neg, fd_negate.
  destruct (okfd_size (fd_flip a)) as [H1 H2]; [apply okfd_flip, cdwf_okfd; exact Ha|].
  pose proof (fd_flip_units a n Hn) as Hf. pose proof Ha as (n' & _ & _ & _ & He).
  pose proof (wrap_fix (fd_flip a) ltac:(lia)) as W. rewrite (has_units_floor _ _ Hf) in W.
  assert (Hid : fix_ctx (fd_flip a) = Ok (fd_flip a)).
  { apply fix_ctx_id; cbn [fd_flip fexp] in *; try lia. rewrite flen_flip.
    destruct (cdwf_size a Ha). destruct Ha as (k & Hk & Hr & Hz & _).
    apply has_units_scoef in Hk as [_ Hk]. apply flen_lt; [lia|].
    pose proof (p10_pos (fexp a + 30) ltac:(lia)). unfold LIMU, MAXU in Hr. nia. }
  rewrite Hid. cbn [bindr]. apply cd_of_fd_stores; exact Hf.
Qed.
Lemma cdwf_fix_id a : cdwf a -> fix_ctx a = Ok a.
Proof.
  intros Ha. destruct (cdwf_size a Ha). pose proof Ha as (k & Hk & Hr & Hz & He).
  apply fix_ctx_id; try lia. apply has_units_scoef in Hk as [_ Hk]. apply flen_lt; [lia|].
  pose proof (p10_pos (fexp a + 30) ltac:(lia)). unfold LIMU, MAXU in Hr. nia.
Qed.
Lemma cd_abs_stores a n : cdwf a -> has_units a n -> stores (cd_abs a) (store (Z.abs n)).
Proof.
  intros Ha Hn. pose proof Hn as Hn'. apply has_units_scoef in Hn' as [Hge Hn'].
  pose proof (p10_pos (fexp a + 30) ltac:(lia)). unfold scoef in Hn'.
  unfold cd_abs, fd_abs. destruct (fneg a) eqn:E.
  - replace (Z.abs n) with (- n) by nia. apply cd_neg_stores; assumption.
  - rewrite cdwf_fix_id by exact Ha. cbn [bindr]. replace (Z.abs n) with n by nia. apply cd_of_fd_stores; exact Hn.
Qed.

(** ** Division *)
Lemma shorten_spec fuel c e ideal :
  (c <> 0)%N ->
  let '(c', e') := shorten fuel c e ideal in
  e <= e' /\ Z.of_N c' * 10 ^ (e' - e) = Z.of_N c /\ (c' <> 0)%N.
Proof.
  revert c e; induction fuel as [|f IH]; intros c e Hc; cbn [shorten].
  - rewrite Z.sub_diag, Z.mul_1_r. split; [lia | split; [reflexivity | exact Hc]].
  - destruct (Z.ltb_spec e ideal) as [He|He]; cbn [andb].
    + destruct (N.eqb_spec (c mod 10) 0) as [Hm|Hm].
      * pose proof (N.div_mod c 10 ltac:(lia)) as Hdm.
        specialize (IH (c / 10)%N (e + 1) ltac:(lia)).
        destruct (shorten f (c / 10) (e + 1) ideal) as [c' e']. destruct IH as (H1 & H2 & H3).
        split; [lia|]. split; [|exact H3].
        replace (e' - e) with ((e' - (e + 1)) + 1) by lia. rewrite p10_add by lia.
        rewrite Z.mul_assoc, H2. lia.
      * rewrite Z.sub_diag, Z.mul_1_r. split; [lia | split; [reflexivity | exact Hc]].
    + rewrite Z.sub_diag, Z.mul_1_r. split; [lia | split; [reflexivity | exact Hc]].
Qed.

Lemma cdwf_len a : cdwf a -> flen a <= 60.
Proof.
  intros Ha. destruct (cdwf_size a Ha). pose proof Ha as (k & Hk & Hr & Hz & He).
  apply has_units_scoef in Hk as [_ Hk]. apply flen_lt; [lia|].
  pose proof (p10_pos (fexp a + 30) ltac:(lia)). unfold LIMU, MAXU in Hr. nia.
Qed.

Lemma div_cross a b c d : b <> 0 -> d <> 0 -> a * d = c * b -> a / b = c / d.
Proof.
  intros Hb Hd H. rewrite <- (Z.div_mul_cancel_r a b d) by assumption. rewrite H, (Z.mul_comm b d).
  apply Z.div_mul_cancel_r; assumption.
Qed.
Lemma sg_mul s x y : sg s x * y = sg s (x * y).
Proof. destruct s; cbn [sg]; lia. Qed.
Lemma div_by_10k x k : 1 <= k -> x / 10 ^ k = (x / 10) / 10 ^ (k - 1).
Proof.
  intros Hk. rewrite Z.div_div by (pose proof (p10_pos (k - 1)); lia).
  f_equal. change 10 with (10 ^ 1) at 2. rewrite <- p10_add by lia. f_equal. lia.
Qed.

(** exact quotient s * (num/den) * 10^e, rounded down to units *)
Lemma sticky_floor (s : bool) (num den : Z) (k : Z) :
  0 <= num -> 0 < den -> 1 <= k -> num mod den <> 0 ->
  let c := num / den in
  let c' := if c mod 5 =? 0 then c + 1 else c in
  sg s c' / 10 ^ k = sg s num / (den * 10 ^ k).
Proof.
  intros Hn Hd Hk Hr c c'. rewrite <- Z.div_div by (pose proof (p10_pos k); lia).
  rewrite (div_by_10k (sg s c') k Hk), (div_by_10k (sg s num / den) k Hk). f_equal.
  pose proof (Z.div_mod num den ltac:(lia)) as E1. pose proof (Z.mod_pos_bound num den Hd) as B1.
  fold c in E1.
  assert (Hs : sg s num / den = sg s (if s then c + 1 else c)).
  { destruct s; cbn [sg].
    - symmetry. apply (Z.div_unique_pos _ _ _ (den - num mod den)); lia.
    - reflexivity. }
  rewrite Hs. unfold c'.
  pose proof (Z.div_mod c 10 ltac:(lia)) as E2. pose proof (Z.mod_pos_bound c 10 ltac:(lia)) as B2.
  pose proof (Z.div_mod c 5 ltac:(lia)) as E3. pose proof (Z.mod_pos_bound c 5 ltac:(lia)) as B3.
  destruct (Z.eqb_spec (c mod 5) 0) as [E5|E5]; destruct s; cbn [sg].
  - reflexivity.
  - assert (HH : c mod 10 = 0 \/ c mod 10 = 5) by lia.
    symmetry; apply Z.div_unique with (r := c mod 10 + 1); lia.
  - assert (HH : c mod 10 <> 0) by lia.
    transitivity (- (c / 10) - 1).
    + symmetry. apply Z.div_unique with (r := 10 - c mod 10); lia.
    + apply Z.div_unique with (r := 9 - c mod 10); lia.
  - reflexivity.
Qed.

Lemma mul_ge_gen t c p : 0 <= t -> t <= c -> 0 < p -> t <= c * p.
Proof. nia. Qed.
Lemma mul_le_neg_gen t c p : 0 <= t -> t <= c -> 0 < p -> - c * p <= - t.
Proof. nia. Qed.
Lemma mul3_ge_gen t b n p : 0 <= t -> 0 < b -> b * t <= n -> 0 < p -> b * t <= n * p.
Proof. nia. Qed.
Lemma mul3_le_neg_gen t b n p : 0 <= t -> 0 < b -> b * t <= n -> 0 < p -> - n * p <= b * - t.
Proof. nia. Qed.
Lemma cd_div_stores a b na nb :
  cdwf a -> cdwf b -> has_units a na -> has_units b nb -> nb <> 0 ->
  stores (cd_div a b) (store (na * ONE / nb)).
Proof.
  intros Ha Hb Hna Hnb Hb0. unfold cd_div, fd_div.
  destruct (cdwf_size a Ha) as [Hla Hea]. destruct (cdwf_size b Hb) as [Hlb Heb].
  pose proof (cdwf_len a Ha) as Hla60. pose proof (cdwf_len b Hb) as Hlb60.
  pose proof (flen_pos a) as Hpa. pose proof (flen_pos b) as Hpb.
  pose proof Hna as Hna1. pose proof Hnb as Hnb1.
  apply has_units_scoef in Hna1 as [_ Hna1]. apply has_units_scoef in Hnb1 as [_ Hnb1].
  destruct (is_zero b) eqn:Zb.
  { exfalso. apply is_zero_spec in Zb. apply Hb0. rewrite Hnb1. unfold scoef. rewrite Zb. destruct (fneg b); reflexivity. }
  apply is_zero_false in Zb. pose proof (flen_bounds b Zb) as HBb.
  destruct (is_zero a) eqn:Za.
  { apply is_zero_spec in Za.
    assert (na = 0) as -> by (rewrite Hna1; unfold scoef; rewrite Za; destruct (fneg a); reflexivity).
    change (0 * ONE) with 0. rewrite Z.div_0_l by exact Hb0.
    rewrite <- (floor_units_zero (mkfd (xorb (fneg a) (fneg b)) 0 (fexp a - fexp b))) by reflexivity.
    apply wrap_fix. unfold flen; cbn [fcoef fexp]. change (Z.of_nat (ndigits 0)) with 1. lia. }
  apply is_zero_false in Za. pose proof (flen_bounds a Za) as HBa.
  unfold PREC. set (sh := flen b - flen a + 60 + 1). destruct (Z.leb_spec 0 sh) as [Hsh|]; [|lia].
  set (num := (fcoef a * pow10 sh)%N). set (s := xorb (fneg a) (fneg b)).
  set (e := fexp a - fexp b - sh).
  assert (Hnum : Z.of_N num = Z.of_N (fcoef a) * 10 ^ sh) by (unfold num; rewrite N2Z.inj_mul, pow10_Z by lia; reflexivity).
  assert (Hlo : Z.of_N (fcoef b) * 10 ^ 60 <= Z.of_N num).
  { rewrite Hnum. transitivity (10 ^ flen b * 10 ^ 60); [apply Z.mul_le_mono_nonneg_r; lia|].
    transitivity (10 ^ (flen a - 1) * 10 ^ sh); [|apply Z.mul_le_mono_nonneg_r; [pose proof (p10_pos sh); lia | lia]].
    rewrite <- !p10_add by lia. apply p10_le. lia. }
  assert (Hhi : Z.of_N num < Z.of_N (fcoef b) * 10 ^ 62).
  { rewrite Hnum. apply Z.lt_le_trans with (10 ^ flen a * 10 ^ sh);
      [apply Z.mul_lt_mono_pos_r; [pose proof (p10_pos sh); lia | lia]|].
    transitivity (10 ^ (flen b - 1) * 10 ^ 62); [|apply Z.mul_le_mono_nonneg_r; lia].
    rewrite <- !p10_add by lia. apply p10_le. lia. }
  set (coeff := (num / fcoef b)%N).
  assert (Hco : Z.of_N coeff = Z.of_N num / Z.of_N (fcoef b)) by apply N2Z.inj_div.
  assert (Hclo : 10 ^ 60 <= Z.of_N coeff) by (rewrite Hco; apply Z.div_le_lower_bound; lia).
  assert (Hchi : Z.of_N coeff < 10 ^ 62) by (rewrite Hco; apply Z.div_lt_upper_bound; lia).
  (* cross-multiplied quotient *)
  assert (HX : forall k, e + 30 = - k -> 0 <= k -> na * ONE / nb = sg s (Z.of_N num) / (Z.of_N (fcoef b) * 10 ^ k)).
  { intros k Hk Hk0. apply div_cross; [exact Hb0 | pose proof (p10_pos k Hk0); nia |].
    rewrite Hna1, Hnb1, Hnum. unfold scoef, s, ONE.
    assert (E : 10 ^ (fexp a + 30) * 10 ^ 30 * 10 ^ k = 10 ^ sh * 10 ^ (fexp b + 30)).
    { rewrite <- !p10_add by lia. f_equal. lia. }
    apply (f_equal (fun t => Z.of_N (fcoef a) * Z.of_N (fcoef b) * t)) in E. revert E.
    generalize (10 ^ (fexp a + 30)) (10 ^ 30) (10 ^ k) (10 ^ sh) (10 ^ (fexp b + 30)) (Z.of_N (fcoef a)) (Z.of_N (fcoef b)).
    intros. destruct (fneg a), (fneg b); cbn [xorb sg]; lia. }
  assert (HY : 0 <= e + 30 -> na * ONE / nb = sg s (Z.of_N num) * 10 ^ (e + 30) / Z.of_N (fcoef b)).
  { intros Hk. apply div_cross; [exact Hb0 | lia |].
    rewrite Hna1, Hnb1, Hnum. unfold scoef, s, ONE.
    assert (E : 10 ^ (fexp a + 30) * 10 ^ 30 = 10 ^ sh * 10 ^ (fexp b + 30) * 10 ^ (e + 30)).
    { rewrite <- !p10_add by lia. f_equal. lia. }
    apply (f_equal (fun t => Z.of_N (fcoef a) * Z.of_N (fcoef b) * t)) in E. revert E.
    generalize (10 ^ (fexp a + 30)) (10 ^ 30) (10 ^ sh) (10 ^ (fexp b + 30)) (10 ^ (e + 30)) (Z.of_N (fcoef a)) (Z.of_N (fcoef b)).
    intros. destruct (fneg a), (fneg b); cbn [xorb sg]; lia. }
  destruct (N.eqb_spec (num mod fcoef b) 0) as [Hrem|Hrem].
  - (* exact *)
    pose proof (shorten_spec (ndigits coeff) coeff e (fexp a - fexp b) ltac:(lia)) as S.
    destruct (shorten _ _ _ _) as [c' e']. destruct S as (S1 & S2 & S3).
    set (d := mkfd s c' e').
    assert (Hex : Z.of_N num = Z.of_N coeff * Z.of_N (fcoef b)).
    { pose proof (N.div_mod num (fcoef b) ltac:(lia)) as DM. fold coeff in DM. rewrite Hrem in DM. lia. }
    replace (na * ONE / nb) with (floor_units d).
    + apply wrap_fix. cbn [d fexp].
      assert (Hc'0 : fcoef d <> 0%N) by exact S3. pose proof (flen_bounds d Hc'0) as HB'. cbn [d fcoef] in HB'. fold d in HB'.
      assert (flen d - 1 + (e' - e) < 62) as HF62; [|clear - HF62 Hla Hlb Hea Heb Hpa Hpb Hla60 Hlb60 Hsh; unfold e, sh in *; lia].
      destruct (Z.le_gt_cases 62 (flen d - 1 + (e' - e))) as [Hbad|]; [exfalso|assumption].
      assert (10 ^ 62 <= Z.of_N coeff); [|lia].
      rewrite <- S2. transitivity (10 ^ (flen d - 1) * 10 ^ (e' - e)).
      * pose proof (flen_pos d). rewrite <- p10_add by lia. apply p10_le; lia.
      * apply Z.mul_le_mono_nonneg_r; [pose proof (p10_pos (e' - e)); lia | lia].
    + assert (Hsd : scoef d * 10 ^ (e' - e) = sg s (Z.of_N coeff)).
      { rewrite scoef_sg; cbn [d fneg fcoef]. rewrite sg_mul, S2. reflexivity. }
      destruct (Z.le_gt_cases 0 (e + 30)) as [Hk|Hk].
      * rewrite (HY Hk), Hex. rewrite floor_units_scoef. cbn [d fexp]. fold d.
        destruct (Z.leb_spec (-30) e') as [_|Hx30]; [|exfalso; clear - Hx30 S1 Hk; lia].
        replace (e' + 30) with ((e' - e) + (e + 30)) by lia. rewrite p10_add, Z.mul_assoc, Hsd by lia.
        rewrite <- sg_mul, <- Z.mul_assoc, (Z.mul_comm (Z.of_N (fcoef b))), Z.mul_assoc, Z.div_mul by lia. reflexivity.
      * rewrite (HX (- (e + 30))), Hex by lia.
        rewrite (floor_units_at d e) by (cbn [d fexp]; lia). cbn [d fexp]. fold d. rewrite Hsd.
        rewrite <- sg_mul, (Z.mul_comm (sg s _)). rewrite Z.div_mul_cancel_l by (pose proof (p10_pos (- (e + 30))); lia).
        f_equal. f_equal. lia.
  - (* inexact, sticky digit *)
    set (c' := if (coeff mod 5 =? 0)%N then (coeff + 1)%N else coeff).
    assert (Hc'b : Z.of_N coeff <= Z.of_N c' <= Z.of_N coeff + 1) by (unfold c'; destruct (coeff mod 5 =? 0)%N; lia).
    set (d := mkfd s c' e).
    assert (Hfl : flen d + fexp d <= 100).
    { assert (flen d <= 63) by (unfold flen; apply ndigits_le_Z; [lia | cbn [d fcoef]; lia]). cbn [d fexp]. lia. }
    replace (store (na * ONE / nb)) with (store (floor_units d)); [apply wrap_fix; exact Hfl|].
    destruct (Z.le_gt_cases 0 (e + 30)) as [Hk|Hk].
    + apply store_big. rewrite (HY Hk). rewrite floor_units_scoef; cbn [d fexp]; fold d.
      destruct (Z.leb_spec (-30) e) as [_|]; [|lia]. rewrite scoef_sg; cbn [d fneg fcoef].
      pose proof (p10_pos (e + 30) Hk) as Hp.
      destruct s; cbn [sg].
      * assert (H60 : 0 <= 10 ^ 60) by (apply Z.pow_nonneg; lia).
        assert (Hc60 : 10 ^ 60 <= Z.of_N c') by (clear - Hclo Hc'b; lia).
        assert (Hb1 : 0 < Z.of_N (fcoef b)) by (clear - Zb; lia).
        right; left. unfold LIMU. split; [apply mul_le_neg_gen; assumption|]. apply Z.div_le_upper_bound; [assumption|].
        apply mul3_le_neg_gen; assumption.
      * assert (H59 : 0 <= 10 ^ 59) by (apply Z.pow_nonneg; lia).
        assert (H5960 : 10 ^ 59 < 10 ^ 60) by reflexivity.
        assert (Hc60 : 10 ^ 60 <= Z.of_N c') by (clear - Hclo Hc'b; lia).
        assert (Hb1 : 0 < Z.of_N (fcoef b)) by (clear - Zb; lia).
        left. unfold MAXU. split.
        -- apply Z.le_trans with (10 ^ 60); [apply Z.lt_le_incl; assumption|]. apply mul_ge_gen; assumption || discriminate.
        -- apply Z.le_trans with (10 ^ 60); [apply Z.lt_le_incl; assumption|]. apply Z.div_le_lower_bound; [assumption|].
           apply mul3_ge_gen; assumption || discriminate.
    + f_equal. set (k := - (e + 30)). assert (Hk1 : 1 <= k) by lia.
      rewrite (HX k) by lia. rewrite floor_units_scoef; cbn [d fexp]; fold d.
      destruct (Z.leb_spec (-30) e) as [|_]; [lia|]. replace (-30 - e) with k by lia.
      rewrite scoef_sg; cbn [d fneg fcoef].
      pose proof (sticky_floor s (Z.of_N num) (Z.of_N (fcoef b)) k ltac:(lia) ltac:(lia) Hk1) as SF.
      cbv zeta in SF. rewrite <- SF.
      * f_equal. f_equal. rewrite <- Hco. unfold c'.
        replace (Z.of_N coeff mod 5) with (Z.of_N (coeff mod 5)) by (rewrite N2Z.inj_mod; reflexivity).
        clear - coeff. destruct (N.eqb_spec (coeff mod 5) 0), (Z.eqb_spec (Z.of_N (coeff mod 5)) 0); lia.
      * rewrite <- N2Z.inj_mod. lia.
Qed.

(** ** Integer division and remainder *)
Lemma quot_sg s1 s2 x y : 0 <= x -> 0 < y ->
  Z.quot (sg s1 x) (sg s2 y) = sg (xorb s1 s2) (x / y) /\ Z.rem (sg s1 x) (sg s2 y) = sg s1 (x mod y).
Proof.
  intros Hx Hy. destruct s1, s2; cbn [sg xorb];
    rewrite ?Z.quot_opp_opp, ?Z.quot_opp_l, ?Z.quot_opp_r, ?Z.rem_opp_opp, ?Z.rem_opp_l', ?Z.rem_opp_r' by lia;
    rewrite ?Z.quot_div_nonneg, ?Z.rem_mod_nonneg by lia; split; lia.
Qed.

Lemma scoef_units a : -30 <= fexp a -> forall m, -30 <= m <= fexp a ->
  scoef a * 10 ^ (fexp a + 30) = scoef a * 10 ^ (fexp a - m) * 10 ^ (m + 30).
Proof. intros H m Hm. rewrite <- Z.mul_assoc, <- p10_add by lia. f_equal. f_equal. lia. Qed.

Lemma sg_lt_gen s x p L : 0 <= x -> 0 < p -> - L < sg s x * p < L -> x < L.
Proof. destruct s; cbn [sg]; nia. Qed.
Lemma fd_divide_spec a b na nb :
  cdwf a -> cdwf b -> has_units a na -> has_units b nb -> nb <> 0 ->
  exists q r, fd_divide a b = Ok (q, r) /\
    fexp q = 0 /\ scoef q = Z.quot na nb /\
    has_units r (Z.rem na nb) /\ fneg r = fneg a /\ fexp r = Z.min (fexp a) (fexp b).
Proof.
  intros Ha Hb Hna Hnb Hb0. unfold fd_divide.
  destruct (cdwf_size a Ha) as [Hla Hea]. destruct (cdwf_size b Hb) as [Hlb Heb].
  pose proof (cdwf_len a Ha) as Hla60. pose proof (cdwf_len b Hb) as Hlb60.
  pose proof (flen_pos a) as Hpa. pose proof (flen_pos b) as Hpb.
  set (m := Z.min (fexp a) (fexp b)).
  apply has_units_scoef in Hna as [_ Hna]. apply has_units_scoef in Hnb as [_ Hnb].
  rewrite (scoef_units a Hea m) in Hna by lia. rewrite (scoef_units b Heb m) in Hnb by lia.
  pose proof (p10_pos (m + 30) ltac:(lia)) as Hpm.
  set (x := (fcoef a * pow10 (fexp a - m))%N). set (y := (fcoef b * pow10 (fexp b - m))%N).
  assert (Hx : scoef a * 10 ^ (fexp a - m) = sg (fneg a) (Z.of_N x)).
  { unfold x. rewrite N2Z.inj_mul, pow10_Z, scoef_sg, sg_mul by lia. reflexivity. }
  assert (Hy : scoef b * 10 ^ (fexp b - m) = sg (fneg b) (Z.of_N y)).
  { unfold y. rewrite N2Z.inj_mul, pow10_Z, scoef_sg, sg_mul by lia. reflexivity. }
  rewrite Hx in Hna. rewrite Hy in Hnb.
  assert (Hy0 : (y <> 0)%N).
  { intros E. apply Hb0. rewrite Hnb, E. destruct (fneg b); reflexivity. }
  assert (Zb : fcoef b <> 0%N) by (intros E; apply Hy0; unfold y; rewrite E; reflexivity).
  assert (Hq : Z.quot na nb = sg (xorb (fneg a) (fneg b)) (Z.of_N (x / y)%N)).
  { rewrite Hna, Hnb, Z.quot_mul_cancel_r by (try lia; destruct (fneg b); cbn [sg]; lia).
    rewrite N2Z.inj_div. apply quot_sg; lia. }
  assert (Hr : Z.rem na nb = sg (fneg a) (Z.of_N (x mod y)%N) * 10 ^ (m + 30)).
  { rewrite Hna, Hnb, Z.mul_rem_distr_r by (try lia; destruct (fneg b); cbn [sg]; lia).
    f_equal. rewrite N2Z.inj_mod. apply quot_sg; lia. }
  destruct (is_zero a || (adjusted a - adjusted b <=? -2))%bool eqn:Ecase.
  - assert (Hsmall : (x < y)%N).
    { apply orb_true_iff in Ecase as [Ez|El].
      - apply is_zero_spec in Ez. unfold x. rewrite Ez. lia.
      - destruct (N.eq_dec (fcoef a) 0) as [E0|E0]; [unfold x; rewrite E0; lia|].
        apply Z.leb_le in El. unfold adjusted in El.
        pose proof (flen_bounds a E0) as HBa. pose proof (flen_bounds b Zb) as HBb.
        apply N2Z.inj_lt. unfold x, y. rewrite !N2Z.inj_mul, !pow10_Z by lia.
        apply Z.lt_le_trans with (10 ^ flen a * 10 ^ (fexp a - m)).
        + apply Z.mul_lt_mono_pos_r; [apply p10_pos; lia | lia].
        + transitivity (10 ^ (flen b - 1) * 10 ^ (fexp b - m)).
          * rewrite <- !p10_add by lia. apply p10_le. lia.
          * apply Z.mul_le_mono_nonneg_r; [pose proof (p10_pos (fexp b - m)); lia | lia]. }
    eexists _, _. split; [reflexivity|]. split; [reflexivity|].
    rewrite N.div_small in Hq by exact Hsmall. rewrite N.mod_small in Hr by exact Hsmall.
    split; [rewrite Hq; unfold scoef; cbn [fneg fcoef]; destruct (xorb _ _); reflexivity|].
    unfold rescale. destruct (is_zero a) eqn:Ez.
    + cbn [fneg fexp]. split; [|split; reflexivity]. apply has_units_scoef. cbn [fexp]. split; [lia|].
      rewrite Hr. unfold scoef; cbn [fneg fcoef]. apply is_zero_spec in Ez. unfold x; rewrite Ez.
      destruct (fneg a); reflexivity.
    + destruct (Z.leb_spec m (fexp a)) as [_|]; [|lia]. cbn [fneg fexp]. split; [|split; reflexivity].
      apply has_units_scoef. cbn [fexp]. split; [lia|]. rewrite Hr. unfold scoef; cbn [fneg fcoef]. fold x.
      destruct (fneg a); cbn [sg]; lia.
  - apply orb_false_iff in Ecase as [Ez El]. apply is_zero_false in Ez. apply Z.leb_gt in El.
    unfold PREC. pose proof (flen_bounds a Ez) as HBa. pose proof (flen_bounds b Zb) as HBb.
    destruct (Z.leb_spec (adjusted a - adjusted b) 60) as [_|Hbad]; [|unfold adjusted in Hbad; lia].
    assert (Hqs : (x / y < pow10 60)%N).
    { apply N.div_lt_upper_bound; [exact Hy0|]. apply N2Z.inj_lt. rewrite N2Z.inj_mul, pow10_Z by lia.
      apply Z.lt_le_trans with (10 ^ 60); [|pose proof (p10_pos 60 ltac:(discriminate)) as P60; clear - P60 Hy0; nia].
      destruct Ha as (na' & Hna' & Hra & _). apply has_units_scoef in Hna' as [_ Hna'].
      rewrite (scoef_units a Hea m), Hx in Hna' by lia. unfold LIMU, MAXU in Hra.
      apply (sg_lt_gen (fneg a) (Z.of_N x) (10 ^ (m + 30)) (10 ^ 60)); [apply N2Z.is_nonneg | exact Hpm | rewrite <- Hna'; clear - Hra; lia]. }
    destruct (N.ltb_spec (x / y) (pow10 60)) as [_|]; [|lia].
    eexists _, _. split; [reflexivity|]. split; [reflexivity|].
    split; [rewrite Hq; reflexivity|]. cbn [fneg fexp]. split; [|split; reflexivity].
    apply has_units_scoef. cbn [fexp]. split; [lia|]. rewrite Hr. reflexivity.
Qed.

Lemma cd_floordiv_stores a b na nb :
  cdwf a -> cdwf b -> has_units a na -> has_units b nb -> nb <> 0 ->
  stores (cd_floordiv a b) (store (Z.quot na nb * ONE)).
Proof.
  intros Ha Hb Hna Hnb Hb0. unfold cd_floordiv, fd_floordiv.
  destruct (is_zero b) eqn:Zb.
  { exfalso. apply is_zero_spec in Zb. apply Hb0. apply has_units_scoef in Hnb as [_ ->]. unfold scoef. rewrite Zb. destruct (fneg b); reflexivity. }
  destruct (fd_divide_spec a b na nb Ha Hb Hna Hnb Hb0) as (q & r & -> & Hq1 & Hq2 & _). cbn [bindr fst].
  unfold wrap. cbn [bindr]. replace (Z.quot na nb * ONE) with (floor_units q); [apply fixed_twice|].
  rewrite floor_units_scoef, Hq1, Hq2. reflexivity.
Qed.

Lemma cd_mod_stores a b na nb :
  cdwf a -> cdwf b -> has_units a na -> has_units b nb -> nb <> 0 ->
  stores (cd_mod a b) (Ok (Z.rem na nb)).
Proof.
  intros Ha Hb Hna Hnb Hb0. unfold cd_mod, fd_mod.
  destruct (is_zero b) eqn:Zb.
  { exfalso. apply is_zero_spec in Zb. apply Hb0. apply has_units_scoef in Hnb as [_ ->]. unfold scoef. rewrite Zb. destruct (fneg b); reflexivity. }
  destruct (fd_divide_spec a b na nb Ha Hb Hna Hnb Hb0) as (q & r & -> & _ & _ & Hr & Hn & He). cbn [bindr snd].
  destruct (cdwf_size a Ha) as [Hla Hea]. destruct (cdwf_size b Hb) as [Hlb Heb].
  assert (Hra : - LIMU < na <= MAXU).
  { destruct Ha as (na' & Hna' & Hra & _). replace na with na' by (eapply has_units_inj; eassumption). exact Hra. }
  assert (Hrange : - LIMU < Z.rem na nb <= MAXU).
  { pose proof (Z.rem_le (Z.abs na) (Z.abs nb) ltac:(lia) ltac:(lia)) as HA.
    rewrite Z.rem_abs in HA by exact Hb0.
    destruct (Z.le_gt_cases 0 na) as [Hs|Hs].
    - pose proof (Z.rem_nonneg na nb Hb0 Hs) as HN. unfold LIMU, MAXU in *; lia.
    - pose proof (Z.rem_nonpos na nb Hb0 ltac:(lia)) as HN. unfold LIMU, MAXU in *; lia. }
  rewrite <- (store_range _ Hrange). rewrite <- (has_units_floor r _ Hr).
  apply wrap_fix. rewrite He.
  assert (flen r <= 60).
  { apply flen_lt; [lia|]. apply has_units_scoef in Hr as [Hge Hr]. 
    pose proof (p10_pos (fexp r + 30) ltac:(lia)). unfold LIMU, MAXU in *. nia. }
  pose proof (flen_pos a). lia.
Qed.

(** ** Everything constructed is well formed *)
Lemma fix_precision_wf x d : fix_precision x = Ok d -> cdwf d.
Proof.
  destruct x as [y|[]|]; cbn [fix_precision]; try discriminate.
  - intros H. eapply stores_wf; [apply fix_precision_stores | exact H].
  - intros H; injection H as <-. exists MAXU. split; [exact MAX_has_units|]. split; [unfold MAXU, LIMU; lia|]. cbn. split; [discriminate|lia].
Qed.
Lemma cdwf_units d : cdwf d -> exists n, has_units d n.
Proof. intros (n & H & _). exists n; exact H. Qed.
Lemma cd_of_str_wf s d : cd_of_str s = Ok d -> cdwf d.
Proof.
  unfold cd_of_str. destruct (dec_of_str (neg_sci_not s)) as [x|e]; cbn [bindr]; [|discriminate]. apply fix_precision_wf.
Qed.
Lemma wrap_wf r d : wrap r = Ok d -> cdwf d.
Proof.
  unfold wrap. destruct r as [x|e]; cbn [bindr]; [|discriminate].
  destruct (fix_precision (DFin x)) as [y|e]; cbn [bindr]; [|discriminate]. apply fix_precision_wf.
Qed.
Lemma constructed_wf d : constructed d -> cdwf d.
Proof.
  induction 1 as [s d H|z d H|r d H|x d H|a b d _ _ _ _ H|a b d _ _ _ _ H|a b d _ _ _ _ H|a b d _ _ _ _ H
    |a b d _ _ _ _ H|a b d _ _ _ _ H|a d _ _ H|a d _ _ H].
  1, 3: exact (cd_of_str_wf _ _ H).
  - unfold cd_of_int in H. destruct (py_int_str z); cbn [bindr] in H; [|discriminate]. exact (cd_of_str_wf _ _ H).
  - exact (fix_precision_wf _ _ H).
  - exact (wrap_wf _ _ H).
  - exact (wrap_wf _ _ H).
  - exact (wrap_wf _ _ H).
  - exact (wrap_wf _ _ H).
  - exact (wrap_wf _ _ H).
  - exact (wrap_wf _ _ H).
  - unfold cd_neg in H. destruct (fd_negate a); cbn [bindr] in H; [|discriminate]. exact (fix_precision_wf _ _ H).
  - unfold cd_abs in H. destruct (fd_abs a); cbn [bindr] in H; [|discriminate]. exact (fix_precision_wf _ _ H).
Qed.
