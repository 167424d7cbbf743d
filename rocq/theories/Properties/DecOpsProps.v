(** * C101: operators between a decimal and any value *)
From Coq Require Import Lia.
From Verif Require Import Model.Base Model.Dec Model.Value Model.TimeOps Model.DecOps Spec.DecSpec Spec.DecOpsSpec.
From Verif Require Import Proofs.BaseFacts Proofs.DecFacts Properties.DecProps.
Local Open Scope Z_scope.

(** A number in range that is not odd becomes the decimal with its units *)
Lemma operand b n : number b n -> in_range n -> ~ odd_number b ->
  exists y, get_other b = Some (Ok y) /\ constructed y /\ has_units y n.
Proof.
  intros H R O. assert (S : store n = Ok n) by (unfold store, in_range in *; destruct (Z.ltb_spec MAXU n), (Z.leb_spec n (- LIMU)); lia || reflexivity).
  destruct H as [d n Hc Hu|z|b|f Hf].
  - exists d. auto.
  - assert (B : Z.abs z < 10 ^ 4300).
    { unfold in_range, LIMU, MAXU, ONE in R. assert (P : 10 ^ 60 <= 10 ^ 4300) by (apply Z.pow_le_mono_r; lia).
      revert P. generalize (10 ^ 4300). intros P Hp. lia. }
    pose proof (C22_ints z B) as A. rewrite S in A. cbn [get_other]. unfold get_other_int.
    destruct (cd_of_int z) as [y|e] eqn:E; [|contradiction]. exists y. repeat split; try apply A. exact (c_int _ _ E).
  - contradiction O. constructor.
  - assert (A : agrees (cd_of_float (frepr_text f)) (store (floor_units (frepr_value f)))).
    { apply C22_floats; [exact Hf|]. destruct (fr_neg f) eqn:N; [|auto]. right. destruct (fr_exp f) as [[[] k]|] eqn:X; auto.
      apply O. econstructor; eassumption. }
    rewrite S in A. cbn [get_other]. unfold get_other_float. destruct (cd_of_float (frepr_text f)) as [y|e] eqn:E; [|contradiction].
    exists y. repeat split; try apply A. exact (c_float _ _ E).
Qed.
Lemma arith_agrees o x y nx ny : constructed x -> constructed y -> has_units x nx -> has_units y ny ->
  agrees (cd_arith o x y) (arith_units o nx ny).
Proof.
  intros Hx Hy Ux Uy. destruct (C19_arithmetic_exact_rounded_down x y nx ny Hx Hy Ux Uy) as (H1 & H2 & H3 & H4 & _).
  destruct o; cbn [cd_arith arith_units]; try assumption.
  - destruct (Z.eqb_spec ny 0) as [->|N].
    + destruct (C24_by_zero x y nx Hx Hy Ux Uy) as [_ ->]. reflexivity.
    + destruct (C24_floordiv_mod x y nx ny Hx Hy Ux Uy N) as (_ & r & nr & -> & Ur & _ & _ & _ & E).
      cbn. replace (Z.rem nx ny) with nr; [exact Ur|]. pose proof (Z.quot_rem' nx ny). lia.
  - destruct (Z.eqb_spec ny 0) as [->|N].
    + destruct (C24_by_zero x y nx Hx Hy Ux Uy) as [-> _]. reflexivity.
    + apply (C24_floordiv_mod x y nx ny Hx Hy Ux Uy N).
Qed.
Lemma is_dec_of r s : agrees r s -> is_dec (do z <- r; Ok (VDec z)) s.
Proof. destruct r, s; cbn; auto. Qed.
(** Between a decimal and a number, on either side, the operators are those of the numbers.  (Missing from the claim: the odd
    numbers below, and numbers out of range, C23.) *)
Theorem C101_arithmetic_partial o a na b nb :
  constructed a -> has_units a na -> number b nb -> in_range nb -> ~ odd_number b ->
  is_dec (dec_left o a b) (arith_units o na nb) /\
  exists r, dec_right o b a = Some r /\ is_dec r (arith_units o nb na).
Proof.
  intros Ha Ua Hb R O. destruct (operand b nb Hb R O) as (y & E & Cy & Uy). unfold dec_left, dec_right. rewrite E. cbn [bindr].
  split; [apply is_dec_of, arith_agrees; assumption|].
  exists (do z <- cd_arith o y a; Ok (VDec z)). split; [|apply is_dec_of, arith_agrees; assumption].
  destruct o; try reflexivity. destruct b; reflexivity || discriminate.
Qed.
Lemma cmp_agrees o a b na nb : constructed a -> constructed b -> has_units a na -> has_units b nb -> cd_cmp o a b = cmp_units o na nb.
Proof.
  intros Ha Hb Ua Ub. destruct (C23_order a b na nb Ha Hb Ua Ub) as (E1 & E2 & E3 & E4 & E5).
  destruct o; cbn [cd_cmp cmp_units]; congruence.
Qed.
Lemma cmp_swapped o x y : cmp_units (swapped o) x y = cmp_units o y x.
Proof. destruct o; cbn; rewrite 1?(Z.eqb_sym y x); reflexivity. Qed.
Theorem C101_comparison_partial o a na b nb :
  constructed a -> has_units a na -> number b nb -> in_range nb -> ~ odd_number b ->
  dec_cmp o a b = Ok (cmp_units o na nb) /\ cmp_dec o b a = Ok (cmp_units o nb na).
Proof.
  intros Ha Ua Hb R O. destruct (operand b nb Hb R O) as (y & E & Cy & Uy). unfold cmp_dec, dec_cmp. rewrite E. cbn [bindr].
  rewrite !(cmp_agrees _ a y na nb), cmp_swapped by assumption. auto.
Qed.
(** With a value that is no number: TypeError; == is False and != is True, except for dates and durations *)
Theorem C101_other_types o c a b : not_number b ->
  dec_left o a b = Err EType /\
  (dec_right o b a = Some (Err EType) \/ dec_right o b a = None /\ o = AMod /\ ((exists t, b = VStr t) \/ exists t, b = VBytes t)) /\
  dec_cmp c a b = (if is_date b then Err EType else match c with OEq => Ok false | ONe => Ok true | _ => Err EType end) /\
  cmp_dec c b a = dec_cmp c a b.
Proof.
  intros H. destruct b; try contradiction H; (split; [reflexivity|]); (split; [|destruct c; split; reflexivity]);
    destruct o; try (left; reflexivity); right; repeat split; eauto.
Qed.
(** An odd number raises in every operation, == included *)
Theorem C101_odd_numbers_refuted o c a b : odd_number b ->
  dec_left o a b = Err EInvalidOperation /\ dec_right o b a = Some (Err EInvalidOperation) /\
  dec_cmp c a b = Err EInvalidOperation /\ cmp_dec c b a = Err EInvalidOperation.
Proof.
  intros H. assert (G : get_other b = Some (Err EInvalidOperation)).
  { destruct H as [[]|f k Hf N X]; [reflexivity|reflexivity|]. cbn [get_other]. unfold get_other_float.
    rewrite (C22_small_negative_floats_refuted f Hf N); [reflexivity|]. rewrite X. exact I. }
  unfold dec_left, dec_right, cmp_dec, dec_cmp. rewrite G. cbn [bindr]. repeat split.
  destruct o; try reflexivity. destruct H; reflexivity.
Qed.
(** decimal('1') == True raises though True == 1; so does decimal('1') + -1.5e-07 *)
Example C101_example :
  constructed (cd "1.5") /\ has_units (cd "1.5") (15 * 10 ^ 29) /\ number (VInt 7) (7 * ONE) /\ in_range (7 * ONE) /\ ~ odd_number (VInt 7) /\
  (exists d, dec_right ASub (VInt 7) (cd "1.5") = Some (Ok (VDec d)) /\ has_units d (55 * 10 ^ 29)) /\
  dec_cmp OLt (cd "1.5") (VInt 7) = Ok true /\ cmp_dec OLt (VInt 7) (cd "1.5") = Ok false /\
  odd_number (VBool true) /\ dec_cmp OEq (cd "1") (VBool true) = Err EInvalidOperation.
Proof.
  split; [apply (c_str (u "1.5")); vm_compute; reflexivity|]. split; [vm_compute; split; [discriminate|reflexivity]|].
  split; [constructor|]. split; [unfold in_range, ONE, LIMU, MAXU; lia|]. split; [intros H; inversion H|].
  split; [eexists; split; [vm_compute; reflexivity|vm_compute; split; [discriminate|reflexivity]]|].
  split; [vm_compute; reflexivity|]. split; [vm_compute; reflexivity|]. split; [constructor|vm_compute; reflexivity].
Qed.
