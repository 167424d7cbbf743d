From Verif Require Import Model.Base Model.Dec Spec.DecSpec Proofs.BaseFacts Proofs.DecFacts Proofs.DecOps.
Local Open Scope Z_scope.

(** ** Scanning *)
Lemma N_of_digs_dval s : N_of_digs s = dval 0 s. Proof. reflexivity. Qed.

Definition alld (s : pystr) : Prop := forallb is_digit s = true.
Lemma alld_app s t : alld (s ++ t) <-> alld s /\ alld t.
Proof. unfold alld. rewrite forallb_app, andb_true_iff. reflexivity. Qed.
Lemma alld_zeros k : alld (zeros k).
Proof. unfold alld, zeros. induction (Z.to_nat k) as [|n IH]; [reflexivity | exact IH]. Qed.
Lemma alld_str n : alld (str_of_N n). Proof. apply digits_str_of_N. Qed.
Lemma alld_In s c : alld s -> In c s -> is_digit c = true.
Proof. unfold alld. rewrite forallb_forall. auto. Qed.
Lemma zeros_length k : 0 <= k -> Z.of_nat (List.length (zeros k)) = k.
Proof. intros H. unfold zeros. rewrite repeat_length. lia. Qed.

Definition nodig (s : pystr) : Prop := match s with [] => True | c :: _ => is_digit c = false end.
Lemma span_digits_app s t : alld s -> nodig t -> span_digits (s ++ t) = (s, t).
Proof.
  intros Hs Ht. induction s as [|c s IH]; cbn [app span_digits].
  - destruct t as [|c t]; [reflexivity|]. cbn in Ht. cbn [span_digits]. rewrite Ht. reflexivity.
  - unfold alld in Hs; cbn [forallb] in Hs. apply andb_true_iff in Hs as [Hc Hs].
    rewrite Hc. rewrite (IH Hs). reflexivity.
Qed.

Lemma dval_zeros_l k s : dval 0 (zeros k ++ s) = dval 0 s.
Proof. rewrite dval_app. f_equal. unfold zeros. induction (Z.to_nat k) as [|n IH]; [reflexivity | exact IH]. Qed.
Lemma dval_acc a s : dval a s = (a * 10 ^ N.of_nat (List.length s) + dval 0 s)%N.
Proof.
  revert a; induction s as [|c s IH]; intros a.
  - cbn [dval fold_left List.length]. change (10 ^ N.of_nat 0)%N with 1%N. unfold dval; cbn [fold_left]. lia.
  - change (dval a (c :: s)) with (dval (10 * a + (c - 48))%N s).
    change (dval 0 (c :: s)) with (dval (10 * 0 + (c - 48))%N s).
    rewrite IH, (IH (10 * 0 + (c - 48))%N). cbn [List.length].
    rewrite Nat2N.inj_succ, N.pow_succ_r'. lia.
Qed.
Lemma dval_zeros_r k s : 0 <= k -> Z.of_N (dval 0 (s ++ zeros k)) = Z.of_N (dval 0 s) * 10 ^ k.
Proof.
  intros Hk. rewrite dval_app, dval_acc. pose proof (dval_zeros_l k []) as H. rewrite app_nil_r in H.
  change (dval 0 []) with 0%N in H. rewrite H, N.add_0_r, N2Z.inj_mul, N2Z.inj_pow, nat_N_Z, zeros_length by exact Hk.
  reflexivity.
Qed.

(** ** The exponent part *)
Definition expo (z : Z) : pystr := if Z.eqb z 0 then [] else ch "E" :: plus_d z.
Lemma digit_not c x : is_digit c = true -> is_digit x = false -> c <> x.
Proof. intros; congruence. Qed.
Lemma str_of_N_cons n : exists c s, str_of_N n = c :: s /\ is_digit c = true.
Proof.
  pose proof (str_of_N_nonnil n). destruct (str_of_N n) as [|c s] eqn:E; [congruence|].
  exists c, s. split; [reflexivity|]. apply (str_of_N_chars n). rewrite E; left; reflexivity.
Qed.
Lemma parse_exp_expo z : parse_exp (expo z) = Some z.
Proof.
  unfold expo. destruct (Z.eqb_spec z 0) as [->|Hz]; [reflexivity|].
  cbn [parse_exp]. change (N.eqb (lower_ascii (ch "E")) (ch "e")) with true. cbn iota.
  unfold plus_d. destruct (Z.ltb_spec z 0) as [Hn|Hp].
  - destruct z as [|p|p]; try lia. cbn [str_of_Z take_sign]. change (N.eqb (ch "-") (ch "-")) with true. cbn iota.
    pose proof (span_digits_app (str_of_N (N.pos p)) [] (alld_str _) I) as S. rewrite app_nil_r in S. rewrite S.
    destruct (str_of_N_cons (N.pos p)) as (c & s & E & _). rewrite E, <- E.
    rewrite N_of_digs_dval, dval_str_of_N. reflexivity.
  - cbn [take_sign]. change (N.eqb (ch "+") (ch "-")) with false. change (N.eqb (ch "+") (ch "+")) with true. cbn iota.
    assert (E0 : str_of_Z z = str_of_N (Z.to_N z)) by (destruct z; try lia; reflexivity). rewrite E0.
    pose proof (span_digits_app (str_of_N (Z.to_N z)) [] (alld_str _) I) as S. rewrite app_nil_r in S. rewrite S.
    destruct (str_of_N_cons (Z.to_N z)) as (c & s & E & _). rewrite E, <- E.
    rewrite N_of_digs_dval, dval_str_of_N. rewrite Z2N.id by lia. reflexivity.
Qed.
Lemma expo_head z : nodig (expo z) /\ match expo z with [] => True | c :: _ => c = ch "E" end.
Proof. unfold expo. destruct (Z.eqb z 0); split; cbn; auto. Qed.

(** ** The mantissa *)
Lemma parse_body_int neg ip z : alld ip -> ip <> [] ->
  parse_body neg (ip ++ expo z) = Some (mkfd neg (dval 0 ip) z).
Proof.
  intros Hd Hne. unfold parse_body. destruct (expo_head z) as [He1 He2].
  rewrite span_digits_app by assumption.
  assert (Hx : match expo z with c :: r' => if N.eqb c (ch ".") then span_digits r' else ([], expo z) | [] => ([], []) end = ([], expo z)).
  { destruct (expo z) as [|c r]; [reflexivity|]. subst c. reflexivity. }
  rewrite Hx. rewrite app_nil_r. destruct ip as [|c ip]; [congruence|].
  rewrite parse_exp_expo. rewrite N_of_digs_dval. cbn [List.length]. f_equal. f_equal. lia.
Qed.
Lemma parse_body_dot neg ip fp z : alld ip -> alld fp -> ip ++ fp <> [] ->
  parse_body neg (ip ++ u "." ++ fp ++ expo z) = Some (mkfd neg (dval 0 (ip ++ fp)) (z - Z.of_nat (List.length fp))).
Proof.
  intros Hd Hf Hne. unfold parse_body. destruct (expo_head z) as [He1 He2].
  rewrite span_digits_app by (assumption || reflexivity). cbn [u app].
  change (N.eqb (N_of_ascii ".") (ch ".")) with true. cbn iota.
  rewrite span_digits_app by assumption. destruct (ip ++ fp) as [|c l] eqn:E; [congruence|]. rewrite <- E.
  rewrite parse_exp_expo. rewrite N_of_digs_dval. reflexivity.
Qed.

(** ** strip and underscores *)
Lemma lstrip_id s : match s with [] => True | c :: _ => is_space c = false end -> lstrip s = s.
Proof. destruct s as [|c s]; [reflexivity|]. cbn. intros ->. reflexivity. Qed.
Lemma strip_id s : (forall c, In c s -> is_space c = false) -> strip s = s.
Proof.
  intros H. unfold strip. rewrite (lstrip_id s).
  - rewrite lstrip_id; [apply rev_involutive|].
    destruct (rev s) as [|c r] eqn:E; [exact I|]. apply H. apply in_rev. rewrite E; left; reflexivity.
  - destruct s as [|c s]; [exact I|]. apply H; left; reflexivity.
Qed.
Lemma lstrip_c_id s : match s with [] => True | c :: _ => is_cspace c = false end -> lstrip_c s = s.
Proof. destruct s as [|c s]; [reflexivity|]. cbn. intros ->. reflexivity. Qed.
Lemma strip_c_id s : (forall c, In c s -> is_cspace c = false) -> strip_c s = s.
Proof.
  intros H. unfold strip_c. rewrite (lstrip_c_id s).
  - rewrite lstrip_c_id; [apply rev_involutive|].
    destruct (rev s) as [|c r] eqn:E; [exact I|]. apply H. apply in_rev. rewrite E; left; reflexivity.
  - destruct s as [|c s]; [exact I|]. apply H; left; reflexivity.
Qed.
Lemma cspace_space c : is_space c = false -> is_cspace c = false.
Proof. unfold is_space, is_cspace. destruct (N.leb_spec 9 c), (N.leb_spec c 13), (N.leb_spec 28 c), (N.leb_spec c 32), (N.eqb_spec c 32); cbn; intros; try reflexivity; try discriminate; lia. Qed.
Lemma remove_char_id x s : ~ In x s -> remove_char x s = s.
Proof.
  intros H. unfold remove_char. induction s as [|c s IH]; [reflexivity|]. cbn [filter].
  destruct (N.eqb_spec c x) as [->|_]; [exfalso; apply H; left; reflexivity|]. cbn [negb].
  f_equal. apply IH. intros Hi; apply H; right; exact Hi.
Qed.

(** characters of number texts *)
Definition numchar (c : N) : Prop :=
  is_digit c = true \/ c = ch "-" \/ c = ch "+" \/ c = ch "." \/ c = ch "E".
Lemma numchar_space c : numchar c -> is_space c = false.
Proof.
  intros [H|[->|[->|[->| ->]]]]; try reflexivity. unfold is_digit in H. unfold is_space.
  apply andb_true_iff in H as [H1 H2]. apply N.leb_le in H1, H2.
  apply orb_false_iff; split; apply andb_false_iff; rewrite !N.leb_gt; lia.
Qed.
Lemma numchar_not c x : numchar c -> is_digit x = false -> x <> ch "-" -> x <> ch "+" -> x <> ch "." -> x <> ch "E" -> c <> x.
Proof. intros [H|[->|[->|[->| ->]]]]; congruence. Qed.
Lemma alld_numchar s c : alld s -> In c s -> numchar c.
Proof. intros H Hi. left. exact (alld_In s c H Hi). Qed.
Lemma str_of_Z_numchar z c : In c (str_of_Z z) -> numchar c.
Proof.
  destruct z as [|p|p]; cbn [str_of_Z].
  - intros H. apply (alld_numchar _ _ (alld_str _) H).
  - intros H. apply (alld_numchar _ _ (alld_str _) H).
  - intros [<-|H]; [right; left; reflexivity|]. apply (alld_numchar _ _ (alld_str _) H).
Qed.
Lemma expo_numchar z c : In c (expo z) -> numchar c.
Proof.
  unfold expo. destruct (Z.eqb z 0); [intros []|]. intros [<-|H]; [right; right; right; right; reflexivity|].
  unfold plus_d in H. destruct (Z.ltb z 0); [exact (str_of_Z_numchar _ _ H)|].
  destruct H as [<-|H]; [right; right; left; reflexivity | exact (str_of_Z_numchar _ _ H)].
Qed.

Definition mantissa (eng : bool) (d : fd) (dotplace : Z) : pystr :=
  let int := str_of_N (fcoef d) in
  if Z.leb dotplace 0 then u "0." ++ zeros (- dotplace) ++ int
  else if Z.leb (flen d) dotplace then int ++ zeros (dotplace - flen d)
  else firstn (Z.to_nat dotplace) int ++ u "." ++ skipn (Z.to_nat dotplace) int.
Definition dotpl (eng : bool) (d : fd) : Z :=
  let leftdigits := (fexp d + flen d)%Z in
  if (Z.leb (fexp d) 0 && Z.ltb (-6) leftdigits)%bool then leftdigits
  else if negb eng then 1%Z
  else if is_zero d then ((leftdigits + 1) mod 3 - 1)%Z
  else ((leftdigits - 1) mod 3 + 1)%Z.
Lemma fd_to_str_parts eng d :
  fd_to_str eng d = sgn_str (fneg d) ++ mantissa eng d (dotpl eng d) ++ expo (fexp d + flen d - dotpl eng d).
Proof.
  unfold fd_to_str, mantissa, expo, dotpl.
  set (dp := if (_ && _)%bool then _ else _).
  do 2 f_equal. destruct (Z.eqb_spec (fexp d + flen d) dp), (Z.eqb_spec (fexp d + flen d - dp) 0); try reflexivity; lia.
Qed.

Lemma in_mantissa eng d dp c : In c (mantissa eng d dp) -> numchar c.
Proof.
  unfold mantissa. pose proof (alld_str (fcoef d)) as Hd.
  destruct (Z.leb dp 0); [|destruct (Z.leb (flen d) dp)]; rewrite !in_app_iff.
  - intros [H|[H|H]].
    + destruct H as [<-|[<-|[]]]; [left; reflexivity | right; right; right; left; reflexivity].
    + exact (alld_numchar _ _ (alld_zeros _) H).
    + exact (alld_numchar _ _ Hd H).
  - intros [H|H]; [exact (alld_numchar _ _ Hd H) | exact (alld_numchar _ _ (alld_zeros _) H)].
  - rewrite <- (firstn_skipn (Z.to_nat dp) (str_of_N (fcoef d))) in Hd. apply alld_app in Hd as [H1 H2].
    intros [H|[H|H]].
    + exact (alld_numchar _ _ H1 H).
    + destruct H as [<-|[]]. right; right; right; left; reflexivity.
    + exact (alld_numchar _ _ H2 H).
Qed.
Lemma fd_to_str_numchar eng d c : In c (fd_to_str eng d) -> numchar c.
Proof.
  rewrite fd_to_str_parts, !in_app_iff. intros [H|[H|H]].
  - unfold sgn_str in H. destruct (fneg d); [|destruct H]. destruct H as [<-|[]]. right; left; reflexivity.
  - exact (in_mantissa _ _ _ _ H).
  - exact (expo_numchar _ _ H).
Qed.

Lemma take_sign_sgn neg s : match s with c :: _ => is_digit c = true | [] => False end ->
  take_sign (sgn_str neg ++ s) = (neg, s).
Proof.
  intros H. destruct s as [|c s]; [destruct H|]. destruct neg; cbn [sgn_str u app take_sign].
  - reflexivity.
  - destruct (N.eqb_spec c (ch "-")) as [->|_]; [discriminate|].
    destruct (N.eqb_spec c (ch "+")) as [->|_]; [discriminate|]. reflexivity.
Qed.

(** The number parsed back from the text of d *)
Lemma parse_number_str eng d :
  let k := Z.max 0 (if Z.leb (dotpl eng d) 0 then 0 else dotpl eng d - flen d) in
  parse_number (fd_to_str eng d) = Some (DFin (mkfd (fneg d) (fcoef d * pow10 k) (fexp d - k))).
Proof.
  intros k. rewrite fd_to_str_parts. unfold parse_number.
  pose proof (alld_str (fcoef d)) as Hd.
  assert (Hl : Z.of_nat (List.length (str_of_N (fcoef d))) = flen d) by reflexivity.
  rewrite take_sign_sgn.
  2: { unfold mantissa. destruct (Z.leb_spec (dotpl eng d) 0); [reflexivity|].
       destruct (str_of_N_cons (fcoef d)) as (c & s & E & Hc).
       destruct (Z.leb (flen d) (dotpl eng d)).
       - rewrite E. exact Hc.
       - rewrite E. destruct (Z.to_nat (dotpl eng d)) eqn:En; [lia|]. exact Hc. }
  unfold mantissa. destruct (Z.leb_spec (dotpl eng d) 0) as [H0|H0].
  - rewrite <- !app_assoc. change (u "0.") with (u "0" ++ u "."). rewrite <- app_assoc.
    rewrite (app_assoc (zeros _)).
    rewrite parse_body_dot; [|reflexivity | apply alld_app; split; [apply alld_zeros | exact Hd] | discriminate].
    change (Z.max 0 0) with 0 in k. subst k. do 3 f_equal.
    + change (u "0") with (zeros 1). rewrite app_assoc. rewrite dval_app.
      rewrite <- (app_nil_r (zeros 1 ++ zeros _)), <- app_assoc.
      rewrite dval_zeros_l, dval_zeros_l. change (dval 0 []) with 0%N. rewrite dval_str_of_N.
      change (pow10 0) with 1%N. lia.
    + rewrite app_length, Nat2Z.inj_add, zeros_length, Hl by lia. lia.
  - destruct (Z.leb_spec (flen d) (dotpl eng d)) as [H1|H1].
    + replace k with (dotpl eng d - flen d) by lia.
      rewrite parse_body_int; [| apply alld_app; split; [exact Hd | apply alld_zeros] |].
      * do 3 f_equal; [|lia]. apply N2Z.inj. rewrite dval_zeros_r, dval_str_of_N, N2Z.inj_mul, pow10_Z by lia. reflexivity.
      * destruct (str_of_N_cons (fcoef d)) as (c & s & E & Hc). rewrite E. discriminate.
    + replace k with 0 by lia. rewrite <- !app_assoc.
      pose proof (firstn_skipn (Z.to_nat (dotpl eng d)) (str_of_N (fcoef d))) as FS.
      assert (Hd' := Hd). rewrite <- FS in Hd'. apply alld_app in Hd' as [A1 A2].
      rewrite parse_body_dot; [|exact A1 | exact A2 | rewrite FS; apply str_of_N_nonnil].
      rewrite FS, dval_str_of_N. do 3 f_equal.
      * change (pow10 0) with 1%N. lia.
      * rewrite skipn_length. lia.
Qed.

Lemma dotpl_pad eng d : Z.max 0 (if Z.leb (dotpl eng d) 0 then 0 else dotpl eng d - flen d) <= 2.
Proof.
  unfold dotpl. pose proof (flen_pos d).
  destruct (Z.leb_spec (fexp d) 0); cbn [andb].
  - destruct (Z.ltb_spec (-6) (fexp d + flen d)).
    + destruct (Z.leb_spec (fexp d + flen d) 0); lia.
    + destruct eng; cbn [negb]; [|destruct (Z.leb_spec 1 0); lia].
      destruct (is_zero d).
      * pose proof (Z.mod_pos_bound (fexp d + flen d + 1) 3 ltac:(lia)).
        destruct (Z.leb_spec ((fexp d + flen d + 1) mod 3 - 1) 0); lia.
      * pose proof (Z.mod_pos_bound (fexp d + flen d - 1) 3 ltac:(lia)).
        destruct (Z.leb_spec ((fexp d + flen d - 1) mod 3 + 1) 0); lia.
  - destruct eng; cbn [negb]; [|destruct (Z.leb_spec 1 0); lia].
    destruct (is_zero d).
    + pose proof (Z.mod_pos_bound (fexp d + flen d + 1) 3 ltac:(lia)).
      destruct (Z.leb_spec ((fexp d + flen d + 1) mod 3 - 1) 0); lia.
    + pose proof (Z.mod_pos_bound (fexp d + flen d - 1) 3 ltac:(lia)).
      destruct (Z.leb_spec ((fexp d + flen d - 1) mod 3 + 1) 0); lia.
Qed.

Lemma split_em_none s : ~ In (ch "e") s -> split_em s = None.
Proof.
  induction s as [|a s IH]; [reflexivity|]. intros H. cbn [split_em]. destruct s as [|b s'] eqn:E; [reflexivity|].
  destruct (N.eqb_spec a (ch "e")) as [->|_]; [exfalso; apply H; left; reflexivity|]. cbn [andb].
  rewrite IH; [reflexivity|]. intros Hi; apply H; right; exact Hi.
Qed.
Lemma neg_sci_not_id s : ~ In (ch "e") s -> neg_sci_not s = s.
Proof. intros H. unfold neg_sci_not, split_em2. rewrite split_em_none by exact H. reflexivity. Qed.

Lemma flen_pad s c k e : 0 <= k -> flen (mkfd s (c * pow10 k) e) <= Z.of_nat (ndigits c) + k.
Proof.
  intros Hk. unfold flen; cbn [fcoef]. pose proof (ndigits_pos c).
  apply ndigits_le_Z; [lia|]. rewrite N2Z.inj_mul, pow10_Z, p10_add by lia.
  pose proof (ndigits_le_Z c (Z.of_nat (ndigits c)) ltac:(lia)) as [HH _]. specialize (HH ltac:(lia)).
  pose proof (p10_pos k Hk). nia.
Qed.

Lemma clean_numchar s : (forall c, In c s -> numchar c) -> remove_char (ch "_") (strip s) = s.
Proof.
  intros H. rewrite strip_id by (intros c Hc; apply numchar_space, H, Hc).
  apply remove_char_id. intros Hi. apply H in Hi. apply (numchar_not _ (ch "_") Hi); reflexivity || discriminate.
Qed.

Lemma dec_of_str_str eng d :
  -1000 <= fexp d <= 1000 -> flen d <= 5000 ->
  exists k, 0 <= k <= 2 /\ dec_of_str (fd_to_str eng d) = Ok (DFin (mkfd (fneg d) (fcoef d * pow10 k) (fexp d - k))).
Proof.
  intros He Hf. unfold dec_of_str.
  rewrite clean_numchar by (intros c; apply fd_to_str_numchar).
  rewrite parse_number_str. cbv zeta. set (k := Z.max 0 _).
  assert (Hk : 0 <= k <= 2) by (pose proof (dotpl_pad eng d); lia).
  exists k. split; [exact Hk|].
  pose proof (flen_pad (fneg d) (fcoef d) k (fexp d - k) ltac:(lia)) as HF. unfold flen in Hf.
  unfold adjusted; cbn [fexp].
  destruct (Z.ltb_spec 999999999999999999 (fexp d - k + flen (mkfd (fneg d) (fcoef d * pow10 k) (fexp d - k)) - 1)) as [|_]; [lia|].
  destruct (Z.ltb_spec (fexp d - k) (-1999999999999999997)) as [|_]; [lia|]. reflexivity.
Qed.

Lemma floor_units_pad d k : 0 <= k -> floor_units (mkfd (fneg d) (fcoef d * pow10 k) (fexp d - k)) = floor_units d.
Proof.
  intros Hk. set (d' := mkfd _ _ _).
  set (m := Z.min (-30) (fexp d - k)).
  rewrite (floor_units_at d' m), (floor_units_at d m) by (cbn [d' fexp]; lia). f_equal.
  rewrite !scoef_sg; cbn [d' fneg fcoef fexp]. rewrite N2Z.inj_mul, pow10_Z by lia. rewrite !sg_mul.
  f_equal. rewrite <- Z.mul_assoc, <- p10_add by lia. f_equal. f_equal. lia.
Qed.

Lemma cdwf_fexp_bounds d : cdwf d -> -30 <= fexp d <= 100.
Proof. intros (n & [H _] & _ & _ & Hx). lia. Qed.

(** ContractingDecimal(str(d)) has the value of d; so does the sci form used by the encoder. *)
Lemma cd_of_str_round_trip eng d n : cdwf d -> has_units d n ->
  stores (cd_of_str (fd_to_str eng d)) (Ok n).
Proof.
  intros Hw Hn. unfold cd_of_str. rewrite neg_sci_not_id.
  2: { intros Hi. apply fd_to_str_numchar in Hi. apply (numchar_not _ (ch "e") Hi); reflexivity || discriminate. }
  pose proof (cdwf_fexp_bounds d Hw) as Hb. pose proof (cdwf_len d Hw) as Hl.
  destruct (dec_of_str_str eng d) as (k & Hk & ->); [lia | lia |]. cbn [bindr].
  assert (Hr : - LIMU < n <= MAXU).
  { destruct Hw as (n' & Hn' & Hr & _). replace n with n' by (eapply has_units_inj; eassumption). exact Hr. }
  rewrite <- (store_range n Hr), <- (has_units_floor d n Hn), <- (floor_units_pad d k) by lia.
  apply fix_precision_stores.
Qed.

(** ** Integers *)
Lemma cd_of_int_stores z : Z.of_nat (ndigits (Z.abs_N z)) <= 4300 -> stores (cd_of_int z) (store (z * ONE)).
Proof.
  intros Hd. unfold cd_of_int, py_int_str. destruct (Z.leb_spec (Z.of_nat (ndigits (Z.abs_N z))) 4300) as [_|]; [|lia].
  cbn [bindr]. unfold cd_of_str.
  rewrite neg_sci_not_id.
  2: { intros Hi. apply str_of_Z_numchar in Hi. apply (numchar_not _ (ch "e") Hi); reflexivity || discriminate. }
  unfold dec_of_str. rewrite clean_numchar by (apply str_of_Z_numchar).
  assert (Hp : parse_number (str_of_Z z) = Some (DFin (mkfd (z <? 0) (Z.abs_N z) 0))).
  { unfold parse_number.
    replace (str_of_Z z) with (sgn_str (z <? 0) ++ str_of_N (Z.abs_N z)) by (destruct z; reflexivity).
    rewrite take_sign_sgn.
    - pose proof (parse_body_int (z <? 0) (str_of_N (Z.abs_N z)) 0 (alld_str _) (str_of_N_nonnil _)) as P.
      cbn [expo Z.eqb] in P. rewrite app_nil_r in P. rewrite P, dval_str_of_N. reflexivity.
    - destruct (str_of_N_cons (Z.abs_N z)) as (c & s & -> & Hc). exact Hc. }
  rewrite Hp. unfold adjusted, flen; cbn [fexp fcoef].
  destruct (Z.ltb_spec 999999999999999999 (0 + Z.of_nat (ndigits (Z.abs_N z)) - 1)) as [|_]; [lia|].
  destruct (Z.ltb_spec 0 (-1999999999999999997)) as [|_]; [lia|]. cbn [orb bindr].
  replace (z * ONE) with (floor_units (mkfd (z <? 0) (Z.abs_N z) 0)); [apply fix_precision_stores|].
  rewrite floor_units_scoef. cbn [fexp]. change (-30 <=? 0) with true. cbn iota. unfold ONE.
  unfold scoef; cbn [fneg fcoef]. rewrite N2Z.inj_abs_N.
  destruct (Z.ltb_spec z 0); [rewrite Z.abs_neq by lia | rewrite Z.abs_eq by lia]; f_equal; lia.
Qed.
