(** * C126: numbers and dates as indices of a hash *)
From Verif Require Import Model.Base Model.State Model.Dec Model.Time Model.Value Model.Encoder Model.Hdf5 Model.Runtime Model.Driver Model.TimeText Model.Orm Model.IndexText.
From Verif Require Import Spec.DecSpec Spec.EncSpec Spec.DriverSpec Spec.OrmSpec.
From Verif Require Import Proofs.BaseFacts Proofs.DecFacts Proofs.DecOps Proofs.DecText Proofs.DecCanon Proofs.DiskFacts Proofs.DriverFacts Proofs.ReachFacts Proofs.OrmFacts Proofs.JsonFacts.
From Verif Require Import Properties.DriverProps Properties.OrmProps.
From Coq Require Import Lia.
Local Open Scope Z_scope.

(** A number of contract code, its Python value, and what it is worth in units of 10^-30 *)
Inductive number : Type := Whole (z : Z) | Fraction (d : fd).
Definition as_value (x : number) : pyval := match x with Whole z => VInt z | Fraction d => VDec d end.
Definition worth (x : number) (n : Z) : Prop := match x with Whole z => n = z * ONE | Fraction d => constructed d /\ has_units d n end.
(** h[v] *)
Definition at_ (v : pyval) : hkey := HOne (PVal v).

(** ** The text of a number says its value *)
Lemma dec_of_int z s : py_int_str z = Ok s -> exists d, dec_of_str s = Ok (DFin d) /\ floor_units d = z * ONE.
Proof.
  unfold py_int_str. destruct (Z.leb_spec (Z.of_nat (ndigits (Z.abs_N z))) 4300) as [Hd|]; [|discriminate]. intros E. injection E as <-.
  unfold dec_of_str. rewrite clean_numchar by (apply str_of_Z_numchar).
  assert (Hp : parse_number (str_of_Z z) = Some (DFin (mkfd (z <? 0) (Z.abs_N z) 0))).
  { unfold parse_number. replace (str_of_Z z) with (sgn_str (z <? 0) ++ str_of_N (Z.abs_N z)) by (destruct z; reflexivity). rewrite take_sign_sgn.
    - pose proof (parse_body_int (z <? 0) (str_of_N (Z.abs_N z)) 0 (alld_str _) (str_of_N_nonnil _)) as P. cbn [expo Z.eqb] in P. rewrite app_nil_r in P. rewrite P, dval_str_of_N. reflexivity.
    - destruct (str_of_N_cons (Z.abs_N z)) as (c & s & -> & Hc). exact Hc. }
  rewrite Hp. unfold adjusted, flen; cbn [fexp fcoef].
  destruct (Z.ltb_spec 999999999999999999 (0 + Z.of_nat (ndigits (Z.abs_N z)) - 1)) as [|_]; [lia|].
  destruct (Z.ltb_spec 0 (-1999999999999999997)) as [|_]; [lia|]. cbn [orb].
  exists (mkfd (z <? 0) (Z.abs_N z) 0). split; [reflexivity|].
  rewrite floor_units_scoef. cbn [fexp]. change (-30 <=? 0) with true. cbn iota. unfold ONE. unfold scoef; cbn [fneg fcoef]. rewrite N2Z.inj_abs_N.
  destruct (Z.ltb_spec z 0); [rewrite Z.abs_neq by lia | rewrite Z.abs_eq by lia]; f_equal; lia.
Qed.
Lemma number_text ostr x n s : worth x n -> py_str ostr (as_value x) = Ok s -> exists d, dec_of_str s = Ok (DFin d) /\ floor_units d = n.
Proof.
  destruct x as [z|d]; cbn [worth as_value py_str].
  - intros -> H. exact (dec_of_int z s H).
  - intros [C U] H. injection H as <-. pose proof (constructed_wf d C) as W. pose proof (cdwf_fexp_bounds d W). pose proof (cdwf_len d W).
    destruct (dec_of_str_str true d) as (k & Hk & E); [lia|lia|]. eexists. split; [exact E|]. rewrite floor_units_pad by lia. apply has_units_floor, U.
Qed.
Lemma one_text ostr v s : validate_key ostr (at_ v) = Ok s -> py_str ostr v = Ok s.
Proof.
  unfold validate_key, at_, part_str. destruct (py_str ostr v) as [t|]; cbn [bindr]; [|discriminate]. destruct (check_part t); cbn [bindr]; [|discriminate].
  destruct (assertr _); cbn [bindr]; congruence.
Qed.
(** Two numbers with different values never are one entry: a write to h[x] changes nothing at h[y]. *)
Theorem C126_different_numbers ostr h x y n m v w w' : worth x n -> worth y m -> n <> m ->
  hash_set ostr h (at_ (as_value x)) v w = (Ok tt, w') ->
  fst (hash_get ostr h (at_ (as_value y)) w') = fst (hash_get ostr h (at_ (as_value y)) w).
Proof.
  intros Hx Hy Hne H. set (kx := at_ (as_value x)) in *. set (ky := at_ (as_value y)) in *. destruct (validate_key ostr ky) as [t|e] eqn:Eq.
  2:{ rewrite !(hash_get_err _ _ _ _ _ Eq). reflexivity. }
  destruct (hash_get_eq ostr h ky w _ Eq) as (r & ->). destruct (hash_get_eq ostr h ky w' _ Eq) as (r' & ->). cbn [fst].
  destruct (validate_key ostr kx) as [s|e] eqn:Ep.
  2:{ unfold hash_set in H. rewrite bind_eq, Ep in H. discriminate. }
  unfold hash_set in H. rewrite bind_eq, Ep in H. cbn [lift] in H.
  assert (Hk : entry_key h t <> entry_key h s).
  { unfold entry_key. intros E. apply app_inv_head in E. injection E as ->. apply Hne. apply one_text in Ep, Eq.
    destruct (number_text ostr x n s Hx Ep) as (d & D & <-). destruct (number_text ostr y m s Hy Eq) as (d' & D' & <-). congruence. }
  destruct (set_spec (entry_key h s) v true w) as [(z & r0 & tx & _ & _ & _ & HW & _)|(e & r0 & HE & _)]; rewrite H in *; cbn [fst snd] in *; [|discriminate].
  assert (EF : find (entry_key h t) (w_drv w') = find (entry_key h t) (w_drv w)).
  { rewrite HW. unfold find, pget. destruct (w_drv w); cbn. rewrite dget_dset_other by exact Hk. reflexivity. }
  rewrite EF. reflexivity.
Qed.

(** ** The text of a decimal depends on its value alone, but for zero and the largest *)
Lemma fixed_canon x d : fix_precision x = Ok d -> d = MAX_DECIMAL \/ canon d.
Proof.
  intros H. pose proof (fix_precision_wf x d H) as Wx. pose proof Wx as (n & Ux & Hr & _).
  destruct x as [d0|[]|]; cbn [fix_precision] in H; try discriminate; [|left; congruence].
  destruct (fd_ltb MAX_DECIMAL d0); [left; congruence|]. right.
  destruct (quantize d0 MIN_EXP) as [q|]; cbn [bindr] in H; [|discriminate]; unfold normalize in H.
  destruct (fix_ctx q) as [f|] eqn:Ef; cbn [bindr] in H; [|discriminate].
  destruct (is_zero f) eqn:Ez; [injection H as <-; intros Hx; cbn in Hx; congruence|].
  apply is_zero_false in Ez.
  destruct (Z.le_gt_cases (fexp f) EMAX) as [He|He].
  - pose proof (strip_zeros_done (ndigits (fcoef f)) (fcoef f) (fexp f) Ez (ndigits_lt _) He) as D.
    pose proof (strip_zeros_spec (ndigits (fcoef f)) (fcoef f) (fexp f) He Ez) as P.
    destruct (strip_zeros (ndigits (fcoef f)) (fcoef f) (fexp f)) as [c' e']. injection H as <-. intros _. cbn [fcoef].
    destruct D as [D| ->]; [exact D|]. exfalso.
    destruct P as (_ & _ & P). apply has_units_scoef in Ux as [_ Ux]. cbn [fexp] in Ux. unfold scoef in Ux. cbn [fneg fcoef] in Ux.
    eapply (too_big (fneg f) (Z.of_N c') n (10 ^ (EMAX + 30)) LIMU MAXU); try exact Ux; try exact Hr; try reflexivity; clear -P; lia.
  - exfalso. destruct (strip_zeros (ndigits (fcoef f)) (fcoef f) (fexp f)) as [c' e'] eqn:Es.
    assert (e' = fexp f) by (revert Es; clear -He; destruct (ndigits (fcoef f)); cbn [strip_zeros]; [congruence|];
      rewrite (proj2 (Z.ltb_ge (fexp f) EMAX)) by lia; rewrite andb_false_r; congruence).
    injection H as <-. destruct Wx as (? & _ & _ & _ & Wx). cbn [fexp] in Wx. unfold EMAX in He. lia.
Qed.
Lemma constructed_canon d : constructed d -> d = MAX_DECIMAL \/ canon d.
Proof.
  assert (WR : forall r d, wrap r = Ok d -> d = MAX_DECIMAL \/ canon d).
  { unfold wrap. intros [x|e] d0; cbn [bindr]; [|discriminate]. destruct (fix_precision (DFin x)) as [y|e]; cbn [bindr]; [|discriminate]. apply fixed_canon. }
  assert (SR : forall s d, cd_of_str s = Ok d -> d = MAX_DECIMAL \/ canon d).
  { unfold cd_of_str. intros s d0. destruct (dec_of_str (neg_sci_not s)) as [x|e]; cbn [bindr]; [|discriminate]. apply fixed_canon. }
  destruct 1 as [s d H|z d H|r d H|x d H|a b d _ _ H|a b d _ _ H|a b d _ _ H|a b d _ _ H|a b d _ _ H|a b d _ _ H|a d _ H|a d _ H].
  1, 3: exact (SR _ _ H).
  - unfold cd_of_int in H. destruct (py_int_str z); cbn [bindr] in H; [|discriminate]. exact (SR _ _ H).
  - exact (fixed_canon _ _ H).
  - exact (WR _ _ H).
  - exact (WR _ _ H).
  - exact (WR _ _ H).
  - exact (WR _ _ H).
  - exact (WR _ _ H).
  - exact (WR _ _ H).
  - unfold cd_neg in H. destruct (fd_negate a); cbn [bindr] in H; [|discriminate]. exact (fixed_canon _ _ H).
  - unfold cd_abs in H. destruct (fd_abs a); cbn [bindr] in H; [|discriminate]. exact (fixed_canon _ _ H).
Qed.
(** Two decimals of one value, not zero and not the largest, are one entry. *)
Theorem C126_equal_decimals_partial ostr h a b n : constructed a -> constructed b -> has_units a n -> has_units b n -> n <> 0 -> n <> MAXU ->
  (forall v w, hash_set ostr h (at_ (VDec a)) v w = hash_set ostr h (at_ (VDec b)) v w) /\ forall w, hash_get ostr h (at_ (VDec a)) w = hash_get ostr h (at_ (VDec b)) w.
Proof.
  intros Ca Cb Ua Ub N0 N1. assert (E : a = b).
  { apply (canon_unique a b n); try assumption; [destruct (constructed_canon a Ca) as [->|C]|destruct (constructed_canon b Cb) as [->|C]]; try exact C; exfalso; apply N1.
    - exact (has_units_inj _ _ _ Ua MAX_has_units).
    - exact (has_units_inj _ _ _ Ub MAX_has_units). }
  subst b. split; reflexivity.
Qed.

(** A decimal that is a whole number z, whose last digit is not zero, is the entry of z. *)
Lemma whole_text z : z <> 0 -> cd_str (mkfd (z <? 0) (Z.abs_N z) 0) = str_of_Z z.
Proof.
  intros Hz. assert (F : 1 <= flen (mkfd (z <? 0) (Z.abs_N z) 0)).
  { unfold flen, ndigits. cbn [fcoef]. destruct (str_of_N_cons (Z.abs_N z)) as (c & s & -> & _). cbn [List.length]. lia. }
  unfold cd_str. rewrite fd_to_str_parts. assert (D : dotpl true (mkfd (z <? 0) (Z.abs_N z) 0) = flen (mkfd (z <? 0) (Z.abs_N z) 0)).
  { unfold dotpl. cbn [fexp]. rewrite Z.add_0_l. set (fl := flen _) in *. replace (-6 <? fl) with true by (symmetry; apply Z.ltb_lt; lia). reflexivity. }
  rewrite D. unfold mantissa. cbn [fexp fneg fcoef]. set (fl := flen _) in *. destruct (Z.leb_spec fl 0); [lia|]. rewrite Z.leb_refl, Z.sub_diag, Z.add_0_l, Z.sub_diag.
  change (zeros 0) with (@nil N). change (expo 0) with (@nil N). rewrite !app_nil_r. destruct z; reflexivity.
Qed.
Theorem C126_whole_partial ostr h z d : constructed d -> has_units d (z * ONE) -> z mod 10 <> 0 -> z * ONE <> MAXU -> Z.abs z < 10 ^ 4300 ->
  (forall v w, hash_set ostr h (at_ (VDec d)) v w = hash_set ostr h (at_ (VInt z)) v w) /\ forall w, hash_get ostr h (at_ (VDec d)) w = hash_get ostr h (at_ (VInt z)) w.
Proof.
  intros C U Hm HX HB. assert (Hz : z <> 0) by (intros ->; apply Hm; reflexivity).
  assert (E : d = mkfd (z <? 0) (Z.abs_N z) 0).
  { apply (canon_unique _ _ (z * ONE)); [|intros _| exact U| |unfold ONE; lia].
    - destruct (constructed_canon d C) as [->|K]; [exfalso; apply HX; exact (has_units_inj _ _ _ U MAX_has_units)|exact K].
    - cbn [fcoef]. intros H0. apply Hm. apply (f_equal Z.of_N) in H0. rewrite N2Z.inj_mod, N2Z.inj_abs_N in H0. change (Z.of_N 10) with 10 in H0. change (Z.of_N 0) with 0 in H0.
      destruct (Z.abs_spec z) as [[_ A]|[_ A]]; rewrite A in H0; [exact H0|]. apply Z.mod_opp_l_z in H0; [|lia]. rewrite Z.opp_involutive in H0. exact H0.
    - split; cbn [fexp fneg fcoef]; [lia|]. rewrite N2Z.inj_abs_N. unfold ONE. change (0 + 30) with 30. destruct (Z.ltb_spec z 0); [rewrite Z.abs_neq by lia|rewrite Z.abs_eq by lia]; lia. }
  assert (T : forall k, validate_key ostr (at_ (VDec d)) = k -> validate_key ostr (at_ (VInt z)) = k).
  { intros k <-. unfold validate_key, at_, part_str. cbn [py_str]. rewrite E, whole_text by exact Hz. unfold py_int_str.
    destruct (Z.leb_spec (Z.of_nat (ndigits (Z.abs_N z))) 4300) as [_|L]; [reflexivity|]. exfalso. apply (Z.lt_irrefl 4300). eapply Z.lt_le_trans; [exact L|]. apply ndigits_le_Z; [lia|]. rewrite N2Z.inj_abs_N. exact HB. }
  specialize (T _ eq_refl). unfold hash_set, hash_get. rewrite T. split; reflexivity.
Qed.

(** ** Dates and durations are never accepted *)
Lemma refused ostr k p s : In p (key_parts k) -> part_str ostr p = Ok s -> In (ch ":") s -> ~ exists ts, valid_key ostr k ts.
Proof.
  intros I E C (ts & [H1 _ H3 _ _]). unfold texts in H1. clear -I E C H1 H3. induction H1 as [|q t ps ts Hq H1 IH]; [contradiction|].
  destruct I as [->|I]; [|apply IH; [exact I|intros x Hx; apply H3; right; exact Hx]].
  assert (t = s) by congruence. subst t. exact (proj1 (H3 s (or_introl eq_refl)) C).
Qed.
Lemma date_colon t : In (ch ":") (dt_str t).
Proof. unfold dt_str. do 7 (apply in_or_app; right). left. reflexivity. Qed.
Lemma duration_colon d : In (ch ":") (td_str d).
Proof. unfold td_str. cbv zeta. do 2 (apply in_or_app; right). left. reflexivity. Qed.
(** A date or a duration as the index, or as a part of it: every access raises and neither reads nor writes, whatever the date, the other parts and the state. *)
Theorem C126_dates_refuted ostr h k : (exists t, In (PVal (VTime t)) (key_parts k)) \/ (exists d, In (PVal (VDelta d)) (key_parts k)) ->
  exists e, forall v w, hash_set (index_text ostr) h k v w = (Err e, w) /\ hash_get (index_text ostr) h k w = (Err e, w).
Proof.
  intros H. apply (proj2 (proj2 (C28_hash_keys (index_text ostr) h k))). destruct H as [[t I]|[d I]].
  - exact (refused _ k _ _ I eq_refl (date_colon t)).
  - exact (refused _ k _ _ I eq_refl (duration_colon d)).
Qed.
(** ... and alone as the index it is an AssertionError. *)
Theorem C126_date_raises ostr h t d : (forall v w, hash_set (index_text ostr) h (at_ (VTime t)) v w = (Err EAssertion, w)) /\ forall v w, hash_set (index_text ostr) h (at_ (VDelta d)) v w = (Err EAssertion, w).
Proof.
  assert (G : forall s, In (ch ":") s -> check_part s = Err EAssertion).
  { intros s C. unfold check_part. apply has_char_spec in C. change DELIM with (ch ":"). rewrite C. reflexivity. }
  split; intros v w; unfold hash_set; rewrite bind_eq; unfold validate_key, at_, part_str; cbn [py_str bindr index_text].
  - rewrite (G _ (date_colon t)). reflexivity.
  - rewrite (G _ (duration_colon d)). reflexivity.
Qed.

(** ** Equal numbers can be different entries *)
Definition dec_of (s : string) : fd := match cd_of_str (u s) with Ok d => d | Err _ => mkfd false 0 0 end.
(** 1 - 1, as contracts compute it *)
Definition difference : fd := match cd_sub (dec_of "1") (dec_of "1") with Ok d => d | Err _ => dec_of "1" end.
(** a write to h[x] and a read of h[y] *)
Definition stored_at (x y : pyval) : result pyval := fst (hash_get os0 hB (at_ y) (snd (hash_set os0 hB (at_ x) (VInt 5) w0))).
(** 1000 as a decimal and as a whole number, 1 - 1 and 0, and the largest decimal in two ways: equal numbers, different entries.
    100 as a decimal and as a whole number are one entry.  0.5 and decimal 1500 are refused, 10^-30 is not.  True and 1 are different entries. *)
Theorem C126_refuted :
  (cd_cmp_int cd_eq (dec_of "1000") 1000 = Ok true /\ stored_at (VDec (dec_of "1000")) (VInt 1000) = Ok VNone /\ stored_at (VDec (dec_of "1000")) (VDec (dec_of "1000")) = Ok (VInt 5)) /\
  (cd_cmp_int cd_eq (dec_of "100") 100 = Ok true /\ stored_at (VDec (dec_of "100")) (VInt 100) = Ok (VInt 5)) /\
  (cd_sub (dec_of "1") (dec_of "1") = Ok difference /\ cd_eq difference (dec_of "0") = true /\ stored_at (VDec difference) (VDec (dec_of "0")) = Ok VNone /\
    stored_at (VDec difference) (VDec difference) = Ok (VInt 5)) /\
  (cd_eq (dec_of "1E+29") (dec_of "1E+31") = true /\ stored_at (VDec (dec_of "1E+29")) (VDec (dec_of "1E+31")) = Ok VNone) /\
  hash_set os0 hB (at_ (VDec (dec_of "0.5"))) (VInt 5) w0 = (Err EAssertion, w0) /\ hash_set os0 hB (at_ (VDec (dec_of "1500"))) (VInt 5) w0 = (Err EAssertion, w0) /\
  stored_at (VBool true) (VInt 1) = Ok VNone /\ stored_at (VDec (dec_of "1E-30")) (VDec (dec_of "1E-30")) = Ok (VInt 5).
Proof. vmsplit. Qed.
(** h[1 - 1] is another entry than h[0] for every number that is subtracted from itself *)
Lemma minus_itself a d : cd_sub a a = Ok d -> d = mkfd true 0 0.
Proof.
  unfold cd_sub, fd_sub, fd_add. cbn [fexp fneg fd_flip]. rewrite Z.min_id. replace (scoef a * _ + scoef (fd_flip a) * _) with 0.
  2:{ unfold scoef. cbn [fd_flip fneg fcoef]. destruct (fneg a); cbn [negb]; rewrite Z.mul_opp_l; lia. }
  replace (xorb (fneg a) (negb (fneg a))) with true by (destruct (fneg a); reflexivity). change (fd_of_Z true 0 (fexp a)) with (mkfd true 0 (fexp a)).
  unfold fix_ctx. cbn [is_zero fcoef N.eqb fneg fexp]. set (e := Z.min _ _).
  assert (F : fix_precision (DFin (mkfd true 0 e)) = Ok (mkfd true 0 0)).
  { cbn [fix_precision]. replace (fd_ltb MAX_DECIMAL (mkfd true 0 e)) with false; [reflexivity|]. symmetry.
    destruct (fd_ltb MAX_DECIMAL (mkfd true 0 e)) eqn:L; [|reflexivity]. exfalso. revert L. unfold fd_ltb, fd_compare. unfold scoef. cbn [fneg fcoef fexp]. change (Z.of_N 0) with 0.
    match goal with |- context [?x ?= ?y] => destruct (Z.compare_spec x y) as [Hc|Hc|Hc] end; try discriminate. intros _. revert Hc. cbn [Z.opp Z.mul]. change (fneg MAX_DECIMAL) with false. cbn iota.
    pose proof (N2Z.is_nonneg (fcoef MAX_DECIMAL)). pose proof (N2Z.is_nonneg (pow10 (fexp MAX_DECIMAL - Z.min (fexp MAX_DECIMAL) e))). nia. }
  unfold wrap. cbn [bindr]. rewrite F. cbn [bindr]. unfold cd_of_fd. intros H. vm_compute in H. congruence.
Qed.
Theorem C126_zero_refuted a d : cd_sub a a = Ok d -> cd_eq d (dec_of "0") = true /\ cd_str d = u "-0" /\ cd_str (dec_of "0") = u "0".
Proof. intros H. apply minus_itself in H. subst d. vmsplit. Qed.

(** ** Examples *)
(** the hypotheses of C126_different_numbers and C126_equal_decimals_partial *)
Example C126_example : let x := Fraction (dec_of "2") in let w1 := snd (hash_set os0 hB (at_ (as_value x)) (VInt 5) w0) in
  worth x (2 * ONE) /\ worth (Whole 3) (3 * ONE) /\ hash_set os0 hB (at_ (as_value x)) (VInt 5) w0 = (Ok tt, w1) /\
  cd_add (dec_of "0.5") (dec_of "0.75") = Ok (dec_of "1.25") /\ has_units (dec_of "1.25") (125 * 10 ^ 28) /\ constructed (dec_of "1.25").
Proof.
  cbv zeta. split; [split; [apply (c_str (u "2")); vm_compute; reflexivity|split; vm_compute; [discriminate|reflexivity]]|]. split; [reflexivity|]. split; [vm_compute; reflexivity|].
  split; [vm_compute; reflexivity|]. split; [split; vm_compute; [discriminate|reflexivity]|apply (c_str (u "1.25")); vm_compute; reflexivity].
Qed.
Example C126_text_example : dt_str (mkdt 2024 5 5 0 0 0 0) = u "2024-05-05 00:00:00" /\ td_str (mktd 2 3661 176461) = u "2 days, 1:01:01" /\ td_str (mktd (-1) 0 0) = u "-1 day, 0:00:00" /\ td_str (mktd 0 59 59) = u "0:00:59".
Proof. vmsplit. Qed.
(** the hypotheses of C126_whole_partial *)
Example C126_whole_example : constructed (dec_of "-1234") /\ has_units (dec_of "-1234") (-1234 * ONE) /\ -1234 mod 10 <> 0 /\ stored_at (VDec (dec_of "-1234")) (VInt (-1234)) = Ok (VInt 5).
Proof. split; [apply (c_str (u "-1234")); vm_compute; reflexivity|]. split; [split; vm_compute; [discriminate|reflexivity]|]. split; [vm_compute; discriminate|vm_compute; reflexivity]. Qed.
