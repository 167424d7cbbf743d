(** * The stored text of a decimal depends only on its value (except for the sign of zero) *)
From Verif Require Import Model.Base Model.Dec Spec.DecSpec Proofs.BaseFacts Proofs.DecFacts Proofs.DecOps.
From Coq Require Import Lia.
Local Open Scope Z_scope.

Lemma strip_zeros_done fuel c e : (c <> 0)%N -> (c < 10 ^ N.of_nat fuel)%N -> e <= EMAX ->
  let '(c', e') := strip_zeros fuel c e in (c' mod 10 <> 0)%N \/ e' = EMAX.
Proof.
  revert c e; induction fuel as [|f IH]; intros c e Hc Hb He; cbn [strip_zeros].
  - change (10 ^ N.of_nat 0)%N with 1%N in Hb. lia.
  - destruct (N.eqb_spec (c mod 10) 0) as [Hm|Hm]; cbn [andb]; [|left; exact Hm].
    destruct (Z.ltb_spec e EMAX); [|right; lia].
    apply IH; [|apply N.div_lt_upper_bound; [lia|]|lia].
    + intros H0. apply N.div_small_iff in H0; [|lia]. rewrite N.mod_small in Hm by exact H0. contradiction.
    + rewrite Nat2N.inj_succ, N.pow_succ_r' in Hb. exact Hb.
Qed.
Lemma too_big (neg : bool) c n P L M : 0 < c -> L < P -> M < P -> 0 < P -> - L < n <= M -> n = (if neg then - c else c) * P -> False.
Proof. intros Hc HL HM HP Hn ->. destruct neg; nia. Qed.
Definition canon (d : fd) : Prop := (fcoef d <> 0)%N -> (fcoef d mod 10 <> 0)%N.
Lemma fix_precision_canon d n d' : cdwf d -> has_units d n -> fix_precision (DFin d) = Ok d' -> canon d'.
Proof.
  intros Hw Hn H. pose proof Hw as (n' & Hn' & Hr & _). assert (n' = n) by (eapply has_units_inj; eassumption). subst n'.
  pose proof (fix_precision_stores d) as S. rewrite (has_units_floor d n Hn), (store_range n Hr) in S.
  destruct S as (x & Ex & Ux & Wx). assert (x = d') by congruence. subst x.
  unfold fix_precision in H. unfold fd_ltb in H. rewrite (compare_units _ _ _ _ MAX_has_units Hn) in H.
  destruct (Z.compare_spec MAXU n); try lia.
  all: destruct (quantize d MIN_EXP) as [q|]; cbn [bindr] in H; [|discriminate]; unfold normalize in H.
  all: destruct (fix_ctx q) as [f|] eqn:Ef; cbn [bindr] in H; [|discriminate].
  all: destruct (is_zero f) eqn:Ez; [injection H as <-; intros Hx; cbn in Hx; congruence|].
  all: apply is_zero_false in Ez.
  all: destruct (Z.le_gt_cases (fexp f) EMAX) as [He|He].
  all: try (
    pose proof (strip_zeros_done (ndigits (fcoef f)) (fcoef f) (fexp f) Ez (ndigits_lt _) He) as D;
    pose proof (strip_zeros_spec (ndigits (fcoef f)) (fcoef f) (fexp f) He Ez) as P;
    destruct (strip_zeros (ndigits (fcoef f)) (fcoef f) (fexp f)) as [c' e']; injection H as <-; intros _; cbn [fcoef];
    destruct D as [D| ->]; [exact D|]; exfalso;
    destruct P as (_ & _ & P); apply has_units_scoef in Ux as [_ Ux]; cbn [fexp] in Ux; unfold scoef in Ux; cbn [fneg fcoef] in Ux;
    eapply (too_big (fneg f) (Z.of_N c') n (10 ^ (EMAX + 30)) LIMU MAXU); try exact Ux; try exact Hr; try reflexivity; clear -P; lia).
  all: exfalso; destruct (strip_zeros (ndigits (fcoef f)) (fcoef f) (fexp f)) as [c' e'] eqn:Es;
    assert (e' = fexp f) by (revert Es; clear -He; destruct (ndigits (fcoef f)); cbn [strip_zeros]; [congruence|];
      rewrite (proj2 (Z.ltb_ge (fexp f) EMAX)) by lia; rewrite andb_false_r; congruence);
    injection H as <-; destruct Wx as (? & _ & _ & _ & Wx); cbn [fexp] in Wx; unfold EMAX in He; lia.
Qed.
Lemma canon_unique a b n : canon a -> canon b -> has_units a n -> has_units b n -> n <> 0 -> a = b.
Proof.
  intros Ca Cb Ha Hb Hn. apply has_units_scoef in Ha as [Ea Ha]. apply has_units_scoef in Hb as [Eb Hb].
  pose proof (p10_pos (fexp a + 30) ltac:(lia)) as Pa. pose proof (p10_pos (fexp b + 30) ltac:(lia)) as Pb.
  assert (Na : (fcoef a <> 0)%N) by (intros E; unfold scoef in Ha; rewrite E in Ha; destruct (fneg a); cbn in Ha; lia).
  assert (Nb : (fcoef b <> 0)%N) by (intros E; unfold scoef in Hb; rewrite E in Hb; destruct (fneg b); cbn in Hb; lia).
  assert (Sg : fneg a = fneg b) by (unfold scoef in *; destruct (fneg a), (fneg b); try reflexivity; exfalso; nia).
  assert (G : forall x y, (fcoef x <> 0)%N -> canon x -> -30 <= fexp x -> -30 <= fexp y -> fexp x < fexp y ->
     scoef x * 10 ^ (fexp x + 30) = scoef y * 10 ^ (fexp y + 30) -> False).
  { intros x y Nx Cx Ex Ey Hlt E. apply (Cx Nx).
    remember (fexp x + 30) as p eqn:Ep. remember (fexp y - fexp x - 1) as q eqn:Eq.
    replace (fexp y + 30) with (q + 1 + p) in E by lia.
    assert (E2 : scoef x = scoef y * 10 ^ q * 10).
    { rewrite (p10_add (q + 1) p), (p10_add q 1) in E by lia. change (10 ^ 1) with 10 in E.
      apply (Z.mul_cancel_r _ _ (10 ^ p)); [pose proof (p10_pos p ltac:(lia)); lia|]. rewrite E. ring. }
    apply N2Z.inj. rewrite N2Z.inj_mod. change (Z.of_N 10) with 10. change (Z.of_N 0) with 0.
    unfold scoef at 1 in E2. destruct (fneg x).
    - replace (Z.of_N (fcoef x)) with (- (scoef y * 10 ^ q) * 10) by lia. apply Z.mod_mul; lia.
    - rewrite E2. apply Z.mod_mul; lia. }
  assert (Ee : fexp a = fexp b).
  { destruct (Z.lt_trichotomy (fexp a) (fexp b)) as [H|[H|H]]; [exfalso|exact H|exfalso].
    - eapply (G a b); eauto. congruence.
    - eapply (G b a); eauto. congruence. }
  rewrite Ee in Ha. assert (Sc : scoef a = scoef b) by nia.
  destruct a as [sa ca ea], b as [sb cb eb]. unfold scoef in Sc. cbn [fneg fcoef fexp] in *. subst sb eb. f_equal.
  destruct sa; lia.
Qed.
Lemma fix_precision_value a b n : cdwf a -> cdwf b -> has_units a n -> has_units b n -> n <> 0 ->
  fix_precision (DFin a) = fix_precision (DFin b).
Proof.
  intros Wa Wb Ua Ub Hn. pose proof (fix_precision_stores a) as Sa. pose proof (fix_precision_stores b) as Sb.
  rewrite (has_units_floor a n Ua) in Sa. rewrite (has_units_floor b n Ub) in Sb.
  pose proof Wa as (n' & Hn' & Hr & _). assert (n' = n) by (eapply has_units_inj; eassumption). subst n'.
  rewrite (store_range n Hr) in Sa, Sb. destruct Sa as (x & Ex & Ux & Wx), Sb as (y & Ey & Uy & Wy).
  rewrite Ex, Ey. f_equal. eapply canon_unique; try eassumption.
  - eapply (fix_precision_canon a); eassumption.
  - eapply (fix_precision_canon b); eassumption.
Qed.
