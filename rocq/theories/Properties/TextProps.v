(** * C98: dates from text *)
From Coq Require Import Lia.
From Verif Require Import Model.Base Model.Time Model.TimeText Spec.TimeSpec Spec.TimeTextSpec Proofs.TimeFacts Proofs.TextFacts.
Local Open Scope Z_scope.
Local Notation length := List.length (only parsing).

(** What strptime accepts spells the date it gives by the format: every number in the text is the date's field,
    what is not in the format is 1 January 1900 0:00, no directive is there twice. *)
Theorem C98_sound C text format d : plain C -> dt_strptime C text format = Some (Ok d) ->
  is_datetime d /\ exists F, spells C format text F /\ NoDup (map fst F) /\ shows F d.
Proof.
  intros P. unfold dt_strptime. destruct (parse_format C false format) as [l| |] eqn:Ep; try discriminate.
  destruct (duplicate l) eqn:Du; [discriminate|]. destruct (match_toks C l text) as [[g [|c e]]|] eqn:M; try discriminate.
  intros H. injection H as H. destruct (match_spells C P _ format l text g [] (le_n _) Ep M) as (s0 & E & Sp & Di).
  rewrite app_nil_r in E. subst s0. apply duplicate_dirs in Du. rewrite <- Di in Du.
  split; [exact (isdt _ _ _ _ _ _ _ d H)|]. exists (values C g). split; [exact Sp|].
  split; [exact (values_NoDup C g Du) | exact (fields_show C g d Du H)].
Qed.
(** Otherwise it raises ValueError; only a directive that is in the format twice is another exception *)
Lemma numeral_bound C t v : plain C -> numeral C t v -> 0 <= v < 10 ^ width t.
Proof.
  intros P. induction 1 as [|s v c x H IH E]; [change (0 <= 0 < 1); lia|]. pose proof (pl_value C P c x E).
  unfold width in *. rewrite app_length, Nat2Z.inj_add. cbn [List.length]. rewrite Z.pow_add_r by lia. change (10 ^ Z.of_nat 1) with 10. lia.
Qed.
Lemma written_bound C k t v : plain C -> written C k t v -> 0 <= v < 1000000.
Proof.
  intros P [k' t' v' _ W Nu|t' v' W Nu|t' v' W Nu|t' v' W Nu]; pose proof (numeral_bound C _ _ P Nu) as B.
  - pose proof (Z.pow_le_mono_r 10 (width t') 2 ltac:(lia) ltac:(lia)). lia.
  - rewrite W in B. lia.
  - rewrite W in B. lia.
  - assert (E : 10 ^ width t' * 10 ^ (6 - width t') = 1000000) by (rewrite <- Z.pow_add_r by lia; replace (width t' + (6 - width t')) with 6 by lia; reflexivity).
    pose proof (Z.pow_pos_nonneg 10 (6 - width t') ltac:(lia) ltac:(lia)). nia.
Qed.
Lemma spells_bound C f s F k v : plain C -> spells C f s F -> In (k, v) F -> 0 <= v < 1000000.
Proof.
  intros P. induction 1 as [|c c' f s F _ _ _ _ IH|c' f s F _ _ IH|w w' f s F _ _ _ _ _ IH|k' t v' f s F W _ IH]; try exact IH; [intros []|].
  intros [E|I]; [injection E as -> ->; exact (written_bound C k t v P W) | exact (IH I)].
Qed.
Lemma parse_dir C n : forall f insp l d, (length f <= n)%nat -> parse_format C insp f = PToks l -> In d (dirs l) ->
  exists f1 f2, f = f1 ++ ch "%" :: dir_char d :: f2.
Proof.
  induction n as [|n IH]; intros f insp l d Hn Hp Hd.
  - destruct f; [|cbn in Hn; lia]. cbn in Hp. injection Hp as <-. destruct Hd.
  - destruct f as [|c f]; [cbn in Hp; injection Hp as <-; destruct Hd|]. cbn [parse_format] in Hp. cbn [List.length] in Hn.
    destruct (N.eqb_spec c (ch "%")) as [->|Nc].
    + destruct f as [|k f]; [discriminate|]. cbn [List.length] in Hn. destruct (N.eqb_spec k (ch "%")) as [->|Nk].
      * apply pcons_toks in Hp as (l' & Hp & ->). destruct (IH f _ l' d ltac:(lia) Hp Hd) as (f1 & f2 & ->).
        exists (ch "%" :: ch "%" :: f1), f2. reflexivity.
      * destruct (directive_of k) as [d'|] eqn:Ed; [|destruct (other_directive k); [destruct (parse_format C false f); discriminate Hp | discriminate Hp]].
        apply pcons_toks in Hp as (l' & Hp & ->). destruct Hd as [<-|Hd].
        -- exists [], f. rewrite (directive_char k d' Ed). reflexivity.
        -- destruct (IH f _ l' d ltac:(lia) Hp Hd) as (f1 & f2 & ->). exists (ch "%" :: k :: f1), f2. reflexivity.
    + assert (Tail : forall b l', parse_format C b f = PToks l' -> In d (dirs l') -> exists f1 f2, c :: f = f1 ++ ch "%" :: dir_char d :: f2).
      { intros b l' E I. destruct (IH f b l' d ltac:(lia) E I) as (f1 & f2 & ->). exists (c :: f1), f2. reflexivity. }
      destruct (c_space C c); [destruct insp; [exact (Tail _ _ Hp Hd)|]|]; apply pcons_toks in Hp as (l' & Hp & ->); exact (Tail _ _ Hp Hd).
Qed.
Lemma parse_twice C n : forall f insp l, (length f <= n)%nat -> parse_format C insp f = PToks l -> ~ NoDup (dirs l) ->
  exists f1 k f2 f3, f = f1 ++ ch "%" :: k :: f2 ++ ch "%" :: k :: f3.
Proof.
  assert (Dec : forall a b : directive, {a = b} + {a <> b}) by decide equality.
  induction n as [|n IH]; intros f insp l Hn Hp Hd.
  - destruct f; [|cbn in Hn; lia]. cbn in Hp. injection Hp as <-. exfalso. apply Hd. constructor.
  - destruct f as [|c f]; [cbn in Hp; injection Hp as <-; exfalso; apply Hd; constructor|]. cbn [parse_format] in Hp. cbn [List.length] in Hn.
    destruct (N.eqb_spec c (ch "%")) as [->|Nc].
    + destruct f as [|k f]; [discriminate|]. cbn [List.length] in Hn. destruct (N.eqb_spec k (ch "%")) as [->|Nk].
      * apply pcons_toks in Hp as (l' & Hp & ->). destruct (IH f _ l' ltac:(lia) Hp Hd) as (f1 & k & f2 & f3 & ->).
        exists (ch "%" :: ch "%" :: f1), k, f2, f3. reflexivity.
      * destruct (directive_of k) as [d'|] eqn:Ed; [|destruct (other_directive k); [destruct (parse_format C false f); discriminate Hp | discriminate Hp]].
        apply pcons_toks in Hp as (l' & Hp & ->). cbn [dirs] in Hd. destruct (in_dec Dec d' (dirs l')) as [I|I].
        -- destruct (parse_dir C _ f _ l' d' (le_n _) Hp I) as (f2 & f3 & ->). exists [], k, f2, f3.
           rewrite (directive_char k d' Ed). reflexivity.
        -- assert (Hd' : ~ NoDup (dirs l')) by (intros N; apply Hd; constructor; assumption).
           destruct (IH f _ l' ltac:(lia) Hp Hd') as (f1 & k1 & f2 & f3 & ->). exists (ch "%" :: k :: f1), k1, f2, f3. reflexivity.
    + assert (Tail : forall b l', parse_format C b f = PToks l' -> ~ NoDup (dirs l') -> exists f1 k f2 f3, c :: f = f1 ++ ch "%" :: k :: f2 ++ ch "%" :: k :: f3).
      { intros b l' E I. destruct (IH f b l' ltac:(lia) E I) as (f1 & k & f2 & f3 & ->). exists (c :: f1), k, f2, f3. reflexivity. }
      destruct (c_space C c); [destruct insp; [exact (Tail _ _ Hp Hd)|]|]; apply pcons_toks in Hp as (l' & Hp & ->); exact (Tail _ _ Hp Hd).
Qed.
Theorem C98_errors C text format e : plain C -> dt_strptime C text format = Some (Err e) ->
  e = EValue \/ (e = EException /\ exists f1 k f2 f3, format = f1 ++ ch "%" :: k :: f2 ++ ch "%" :: k :: f3).
Proof.
  intros P. unfold dt_strptime. destruct (parse_format C false format) as [l| |] eqn:Ep; try discriminate; [|intros H; left; congruence].
  destruct (duplicate l) eqn:Du.
  { intros H. right. split; [congruence|]. apply (parse_twice C _ format false l (le_n _) Ep).
    intros N. apply duplicate_dirs in N. congruence. }
  destruct (match_toks C l text) as [[g [|c e']]|] eqn:M; try (intros H; left; congruence).
  intros H. injection H as H. left. destruct (match_spells C P _ format l text g [] (le_n _) Ep M) as (s0 & E & Sp & Di).
  apply duplicate_dirs in Du. rewrite <- Di in Du.
  assert (B : forall D df, 0 <= df < 1000000 -> c_int (match group D g with Some t => group_value C D t | None => df end) = true).
  { intros D df Hf. pose proof (group_values C D g Du) as G. destruct (group D g) as [t|].
    - pose proof (spells_bound C _ _ _ _ _ P Sp G). unfold c_int. apply andb_true_intro. split; [apply Z.leb_le | apply Z.ltb_lt]; lia.
    - unfold c_int. apply andb_true_intro. split; [apply Z.leb_le | apply Z.ltb_lt]; lia. }
  unfold mk_datetime, field, fraction in H.
  pose proof (B DY 1900 ltac:(lia)) as B1. pose proof (B Dm 1 ltac:(lia)) as B2. pose proof (B Dd 1 ltac:(lia)) as B3. pose proof (B DH 0 ltac:(lia)) as B4.
  pose proof (B DM 0 ltac:(lia)) as B5. pose proof (B DS 0 ltac:(lia)) as B6. pose proof (B Df 0 ltac:(lia)) as B7. cbn [group_value] in *.
  cbn [forallb] in H. rewrite B1, B2, B3, B4, B5, B6, B7 in H. cbn in H. destruct (datetime_valid _); [discriminate | congruence].
Qed.

(** ** Full-width text is always read *)
Lemma first_some_at {A B} (f : A -> option B) l1 x l2 b : Forall (fun y => f y = None) l1 -> f x = Some b -> first_some f (l1 ++ x :: l2) = Some b.
Proof. induction 1 as [|y l1 Hy _ IH]; intros H; cbn; [rewrite H; reflexivity|]. rewrite Hy. exact (IH H). Qed.
Lemma two_digits C t v : plain C -> numeral C t v -> width t = 2 -> Forall (fun c => 48 <= Z.of_N c <= 57) t ->
  exists a b, 0 <= a <= 9 /\ 0 <= b <= 9 /\ t = [Z.to_N (48 + a); Z.to_N (48 + b)] /\ v = 10 * a + b.
Proof.
  intros P Nu W F. unfold width in W. destruct t as [|x [|y [|z t]]]; cbn in W; try lia.
  apply numeral_digits in Nu as [E _]. inversion_clear F as [|? ? F1 F']. inversion_clear F' as [|? ? F2 _].
  destruct (ascii_digit C P x F1) as [X _]. destruct (ascii_digit C P y F2) as [Y _].
  unfold digits_val in E. cbn [fold_left] in E. unfold digit_value in E. rewrite X, Y in E.
  exists (Z.of_N x - 48), (Z.of_N y - 48). repeat split; try lia. f_equal; [lia|]. f_equal. lia.
Qed.
(** the alternative that matches full-width text is the first one that matches at all *)
Lemma full_alternative C d t v lo hi w : plain C -> range_of (dir_char d) lo hi w -> lo <= v <= hi -> width t = w -> numeral C t v ->
  Forall (fun c => 48 <= Z.of_N c <= 57) t ->
  exists l1 ks l2, alternatives d = l1 ++ ks :: l2 /\ (forall s, take_cls C ks (t ++ s) = Some (t, s)) /\
    Forall (fun ks' => forall s, take_cls C ks' (t ++ s) = None) l1.
Proof.
  intros P R V W Nu F.
  assert (Hd : forall n, 0 <= n <= 9 -> in_cls C CDig (Z.to_N (48 + n)) = true).
  { intros n Hn. cbn. rewrite (pl_digit C P n Hn). reflexivity. }
  assert (Tw : w = 2 -> exists a b, 0 <= a <= 9 /\ 0 <= b <= 9 /\ t = [Z.to_N (48 + a); Z.to_N (48 + b)] /\ v = 10 * a + b).
  { intros ->. exact (two_digits C t v P Nu W F). }
  assert (Cd : forall n, 0 <= n <= 9 -> n = 0 \/ n = 1 \/ n = 2 \/ n = 3 \/ n = 4 \/ n = 5 \/ n = 6 \/ n = 7 \/ n = 8 \/ n = 9) by (intros; lia).
  unfold range_of in R. cbn [In] in R.
  repeat match goal with H : _ \/ _ |- _ => destruct H as [H|H] end; try contradiction; injection R as Ek <- <- <-;
    destruct d; try discriminate Ek; clear Ek; cbn [alternatives map].
  - exists [], [CDig; CDig; CDig; CDig], []. split; [reflexivity|]. split; [|constructor]. intros s. unfold width in W.
    destruct t as [|c1 [|c2 [|c3 [|c4 [|c5 t]]]]]; cbn in W; try lia. cbn [app take_cls].
    repeat match goal with H : Forall _ (_ :: _) |- _ => inversion_clear H end.
    replace (in_cls C CDig c1) with true by (replace c1 with (Z.to_N (48 + (Z.of_N c1 - 48))) by lia; symmetry; apply Hd; lia).
    replace (in_cls C CDig c2) with true by (replace c2 with (Z.to_N (48 + (Z.of_N c2 - 48))) by lia; symmetry; apply Hd; lia).
    replace (in_cls C CDig c3) with true by (replace c3 with (Z.to_N (48 + (Z.of_N c3 - 48))) by lia; symmetry; apply Hd; lia).
    replace (in_cls C CDig c4) with true by (replace c4 with (Z.to_N (48 + (Z.of_N c4 - 48))) by lia; symmetry; apply Hd; lia).
    reflexivity.
  - destruct (Tw eq_refl) as (a & b & Ha & Hb & -> & ->).
    destruct (Z.eq_dec a 1) as [->|Na].
    + exists [], [r1 "1"; rg "0" "2"], [[r1 "0"; rg "1" "9"]; [rg "1" "9"]]. split; [reflexivity|]. split; [|constructor].
      intros s. assert (Eb : b = 0 \/ b = 1 \/ b = 2) by lia. destruct Eb as [->|[->| ->]]; reflexivity.
    + assert (a = 0) as -> by lia. exists [[r1 "1"; rg "0" "2"]], [r1 "0"; rg "1" "9"], [[rg "1" "9"]]. split; [reflexivity|].
      split; [intros s; destruct (Cd b Hb) as [->|[->|[->|[->|[->|[->|[->|[->|[->| ->]]]]]]]]]; try lia; reflexivity|].
      constructor; [|constructor]. intros s. reflexivity.
  - destruct (Tw eq_refl) as (a & b & Ha & Hb & -> & ->).
    assert (Ea : a = 3 \/ a = 1 \/ a = 2 \/ a = 0) by lia. destruct Ea as [->|[->|[->| ->]]].
    + exists [], [r1 "3"; rg "0" "1"], [[rg "1" "2"; CDig]; [r1 "0"; rg "1" "9"]; [rg "1" "9"]; [r1 " "; rg "1" "9"]]. split; [reflexivity|]. split; [|constructor].
      intros s. assert (Eb : b = 0 \/ b = 1) by lia. destruct Eb as [->| ->]; reflexivity.
    + exists [[r1 "3"; rg "0" "1"]], [rg "1" "2"; CDig], [[r1 "0"; rg "1" "9"]; [rg "1" "9"]; [r1 " "; rg "1" "9"]]. split; [reflexivity|].
      split; [|constructor; [|constructor]; intros s; reflexivity]. intros s. cbn [app take_cls]. rewrite (Hd b Hb). reflexivity.
    + exists [[r1 "3"; rg "0" "1"]], [rg "1" "2"; CDig], [[r1 "0"; rg "1" "9"]; [rg "1" "9"]; [r1 " "; rg "1" "9"]]. split; [reflexivity|].
      split; [|constructor; [|constructor]; intros s; reflexivity]. intros s. cbn [app take_cls]. rewrite (Hd b Hb). reflexivity.
    + exists [[r1 "3"; rg "0" "1"]; [rg "1" "2"; CDig]], [r1 "0"; rg "1" "9"], [[rg "1" "9"]; [r1 " "; rg "1" "9"]]. split; [reflexivity|].
      split; [intros s; destruct (Cd b Hb) as [->|[->|[->|[->|[->|[->|[->|[->|[->| ->]]]]]]]]]; try lia; reflexivity|].
      repeat constructor.
  - destruct (Tw eq_refl) as (a & b & Ha & Hb & -> & ->).
    assert (Ea : a = 2 \/ a = 1 \/ a = 0) by lia. destruct Ea as [->|[->| ->]].
    + exists [], [r1 "2"; rg "0" "3"], [[rg "0" "1"; CDig]; [CDig]]. split; [reflexivity|]. split; [|constructor].
      intros s. assert (Eb : b = 0 \/ b = 1 \/ b = 2 \/ b = 3) by lia. destruct Eb as [->|[->|[->| ->]]]; reflexivity.
    + exists [[r1 "2"; rg "0" "3"]], [rg "0" "1"; CDig], [[CDig]]. split; [reflexivity|].
      split; [|constructor; [|constructor]; intros s; reflexivity]. intros s. cbn [app take_cls]. rewrite (Hd b Hb). reflexivity.
    + exists [[r1 "2"; rg "0" "3"]], [rg "0" "1"; CDig], [[CDig]]. split; [reflexivity|].
      split; [|constructor; [|constructor]; intros s; reflexivity]. intros s. cbn [app take_cls]. rewrite (Hd b Hb). reflexivity.
  - destruct (Tw eq_refl) as (a & b & Ha & Hb & -> & ->).
    exists [], [rg "0" "5"; CDig], [[CDig]]. split; [reflexivity|]. split; [|constructor]. intros s. cbn [app take_cls]. rewrite (Hd b Hb).
    assert (Ea : a = 0 \/ a = 1 \/ a = 2 \/ a = 3 \/ a = 4 \/ a = 5) by lia. destruct Ea as [->|[->|[->|[->|[->| ->]]]]]; reflexivity.
  - destruct (Tw eq_refl) as (a & b & Ha & Hb & -> & ->).
    exists [[r1 "6"; rg "0" "1"]], [rg "0" "5"; CDig], [[CDig]]. split; [reflexivity|].
    assert (Ea : a = 0 \/ a = 1 \/ a = 2 \/ a = 3 \/ a = 4 \/ a = 5) by lia. split.
    + intros s. cbn [app take_cls]. rewrite (Hd b Hb). destruct Ea as [->|[->|[->|[->|[->| ->]]]]]; reflexivity.
    + constructor; [|constructor]. intros s. destruct Ea as [->|[->|[->|[->|[->| ->]]]]]; reflexivity.
  - eexists [], (repeat (rg "0" "9") 6), _. split; [reflexivity|]. split; [|constructor]. intros s. unfold width in W.
    destruct t as [|c1 [|c2 [|c3 [|c4 [|c5 [|c6 [|c7 t]]]]]]]; cbn in W; try lia. cbn [repeat app take_cls].
    repeat match goal with H : Forall _ (_ :: _) |- _ => inversion_clear H end.
    assert (Rg : forall c, 48 <= Z.of_N c <= 57 -> in_cls C (rg "0" "9") c = true).
    { intros c Hc. cbn. apply andb_true_intro. split; apply N.leb_le; lia. }
    rewrite !Rg by assumption. reflexivity.
Qed.
Lemma spaces_app C w s : Forall (fun c => c_space C c = true) w -> no_space_first C s -> spaces C (w ++ s) = length w.
Proof.
  intros F N. induction F as [|c w Hc _ IH]; cbn [app spaces List.length].
  - destruct s as [|c s]; [reflexivity|]. cbn. rewrite (N c s eq_refl). reflexivity.
  - rewrite Hc, IH. reflexivity.
Qed.
Lemma range_directive k lo hi w : range_of k lo hi w -> exists d, k = dir_char d.
Proof.
  unfold range_of. cbn [In]. intros R. repeat match goal with H : _ \/ _ |- _ => destruct H as [H|H] end; try contradiction;
    injection R as <- _ _ _; [exists DY | exists Dm | exists Dd | exists DH | exists DM | exists DS | exists Df]; reflexivity.
Qed.
Lemma written_full C d t v lo hi w : plain C -> range_of (dir_char d) lo hi w -> width t = w -> numeral C t v -> group_value C d t = v.
Proof.
  intros P R W Nu. unfold range_of in R. cbn [In] in R.
  repeat match goal with H : _ \/ _ |- _ => destruct H as [H|H] end; try contradiction; injection R as Ek <- <- <-;
    destruct d; try discriminate Ek; cbn [group_value]; try exact (int_group C P t v Nu).
  rewrite (frac_group C P t v Nu) by lia. rewrite W. lia.
Qed.
Lemma prints_no_space C f s F : plain C -> prints C f s F -> no_space_first C f -> no_space_first C s.
Proof.
  intros P H N. destruct H as [|c f s F Hc Hs H|f s F H|w w' f s F Hw Hw' Fw Fw' Nf H|k t v lo hi wd f s F R V W Nu Dg H];
    intros x y E.
  - discriminate E.
  - injection E as <- _. exact Hs.
  - injection E as <- _. apply (pl_percent C P).
  - destruct w as [|c w]; [congruence|]. inversion_clear Fw as [|? ? F1 _]. specialize (N c (w ++ f) eq_refl). congruence.
  - destruct t as [|c t].
    + exfalso. unfold range_of in R. cbn [In] in R. unfold width in W. cbn in W.
      repeat match goal with H : _ \/ _ |- _ => destruct H as [H|H] end; try contradiction; injection R as _ _ _ R; lia.
    + injection E as <- _. inversion_clear Dg as [|? ? D1 _]. exact (proj2 (ascii_digit C P c D1)).
Qed.
Lemma prints_match C f s F : plain C -> prints C f s F ->
  exists l g, parse_format C false f = PToks l /\ match_toks C l s = Some (g, []) /\ values C g = F /\ map fst g = dirs l.
Proof.
  intros P. induction 1 as [|c f s F Hc Hs H (l & g & Ep & Em & Ev & Ed)|f s F H (l & g & Ep & Em & Ev & Ed)
    |w w' f s F Hw Hw' Fw Fw' Nf H (l & g & Ep & Em & Ev & Ed)|k t v lo hi wd f s F R V W Nu Dg H (l & g & Ep & Em & Ev & Ed)].
  - exists [], []. repeat split.
  - exists (TLit c :: l), g. cbn [parse_format]. destruct (N.eqb_spec c (ch "%")) as [|_]; [contradiction|]. rewrite Hs, Ep.
    split; [reflexivity|]. cbn [match_toks dirs]. rewrite (pl_same C P). repeat split; assumption.
  - exists (TLit (ch "%") :: l), g. cbn [parse_format]. rewrite N.eqb_refl, Ep.
    split; [reflexivity|]. cbn [match_toks dirs]. rewrite (pl_same C P). repeat split; assumption.
  - destruct w as [|c w]; [congruence|]. inversion_clear Fw as [|? ? F1 F2].
    exists (TSpace :: l), g. cbn [app]. rewrite (parse_space C P c w f F1 F2 Nf), Ep. split; [reflexivity|].
    cbn [match_toks dirs]. rewrite (spaces_app C w' s Fw' (prints_no_space C f s F P H Nf)).
    split; [|split; assumption]. destruct w' as [|c' w']; [congruence|].
    cbn [List.length]. rewrite seq_S, rev_app_distr. cbn [rev app first_some].
    replace (skipn (1 + length w') (c' :: w' ++ s)) with s; [rewrite Em; reflexivity|].
    cbn. rewrite skipn_app, skipn_all, Nat.sub_diag. reflexivity.
  - destruct (range_directive k lo hi wd R) as [d ->]. cbn [parse_format].
    exists (TDir d :: l), ((d, t) :: g). rewrite N.eqb_refl, char_directive, Ep.
    replace (N.eqb (dir_char d) (ch "%")) with false by (destruct d; reflexivity).
    split; [reflexivity|]. split; [|split; [cbn [values map fst snd]; f_equal; [|exact Ev]; f_equal; exact (written_full C d t v lo hi wd P R W Nu) | cbn [map fst dirs]; f_equal; exact Ed]].
    cbn [match_toks]. destruct (full_alternative C d t v lo hi wd P R V W Nu Dg) as (l1 & ks & l2 & Ea & Ok1 & No1). rewrite Ea.
    apply first_some_at.
    + eapply Forall_impl; [|exact No1]. intros ks' Hk. cbv beta in Hk |- *. rewrite Hk. reflexivity.
    + rewrite Ok1, Em. reflexivity.
Qed.
Lemma shows_field C g d : NoDup (map fst g) -> shows (values C g) d ->
  field C g DY 1900 = dt_year d /\ field C g Dm 1 = dt_month d /\ field C g Dd 1 = dt_day d /\ field C g DH 0 = dt_hour d /\
  field C g DM 0 = dt_minute d /\ field C g DS 0 = dt_second d /\ fraction C g = dt_micro d.
Proof.
  intros N S. unfold field, fraction.
  assert (U : forall k v v', In (k, v) (values C g) -> In (k, v') (values C g) -> v = v').
  { pose proof (values_NoDup C g N) as N'. generalize (values C g) N'. clear. intros F N k v v'.
    induction F as [|[k0 v0] F IH]; [intros []|]. cbn [map fst] in N. apply NoDup_cons_iff in N as [N1 N2].
    intros [H|H] [H'|H']; [congruence| | |exact (IH N2 H H')].
    - exfalso. apply N1. injection H as -> _. apply in_map_iff. exists (k, v'). split; [reflexivity | exact H'].
    - exfalso. apply N1. injection H' as -> _. apply in_map_iff. exists (k, v). split; [reflexivity | exact H]. }
  assert (G : forall D df x, ((In (dir_char D, x) (values C g)) \/ ((forall v, ~ In (dir_char D, v) (values C g)) /\ x = df)) ->
    match group D g with Some t => group_value C D t | None => df end = x).
  { intros D df x H. pose proof (group_values C D g N) as Gv. destruct (group D g) as [t|].
    - destruct H as [H|[H _]]; [exact (U _ _ _ Gv H) | exfalso; exact (H _ Gv)].
    - destruct H as [H|[_ ->]]; [exfalso; exact (Gv _ H) | reflexivity]. }
  unfold shows in S. cbn [In] in S.
  split; [apply (G DY); apply S; tauto|]. split; [apply (G Dm); apply S; tauto|]. split; [apply (G Dd); apply S; tauto|].
  split; [apply (G DH); apply S; tauto|]. split; [apply (G DM); apply S; tauto|]. split; [apply (G DS); apply S; tauto|].
  apply (G Df); apply S; tauto.
Qed.
(** Every text in full width is read, as the date it shows *)
Theorem C98_full_width C text format F d : plain C -> prints C format text F -> NoDup (map fst F) -> shows F d -> is_datetime d ->
  dt_strptime C text format = Some (Ok d).
Proof.
  intros P H N S D. destruct (prints_match C format text F P H) as (l & g & Ep & Em & <- & Ed).
  assert (Ng : NoDup (map fst g)).
  { unfold values in N. rewrite map_map in N. cbn [fst] in N. rewrite <- (map_map fst dir_char) in N. exact (NoDup_map_inv _ _ N). }
  unfold dt_strptime. rewrite Ep. replace (duplicate l) with false by (symmetry; apply duplicate_dirs; rewrite <- Ed; exact Ng).
  rewrite Em. destruct (shows_field C g d Ng S) as (-> & -> & -> & -> & -> & -> & ->).
  inversion D as [y mo dd h mi s us t E]. subst t. unfold mk_datetime in E.
  destruct (negb _) eqn:E1; [discriminate|]. destruct (datetime_valid _) eqn:E2; [|discriminate]. injection E as <-.
  unfold mk_datetime. cbn [dt_year dt_month dt_day dt_hour dt_minute dt_second dt_micro]. rewrite E1, E2. reflexivity.
Qed.

(** ** str(date) is read back *)
Lemma padded_numeral C w : plain C -> forall n, 0 <= n < 10 ^ Z.of_nat w ->
  numeral C (padded w n) n /\ width (padded w n) = Z.of_nat w /\ Forall (fun c => 48 <= Z.of_N c <= 57) (padded w n).
Proof.
  intros P. induction w as [|w IH]; intros n Hn.
  - cbn in Hn. assert (n = 0) as -> by lia. repeat constructor.
  - rewrite Nat2Z.inj_succ, Z.pow_succ_r in Hn by lia. cbn [padded].
    destruct (IH (n / 10)) as (A & B & D); [split; [apply Z.div_pos; lia | apply Z.div_lt_upper_bound; lia]|].
    pose proof (Z.mod_pos_bound n 10 ltac:(lia)) as M. split; [|split].
    + replace n with (n / 10 * 10 + n mod 10) at 3 by (pose proof (Z.div_mod n 10 ltac:(lia)); lia).
      apply num_snoc; [exact A | apply (pl_digit C P); lia].
    + unfold width in *. rewrite app_length. cbn [List.length]. lia.
    + apply Forall_app. split; [exact D|]. constructor; [lia | constructor].
Qed.
Lemma pt_padded C k n lo hi w f s F : plain C -> range_of k lo hi (Z.of_nat w) -> lo <= n <= hi -> 0 <= n < 10 ^ Z.of_nat w -> prints C f s F ->
  prints C (ch "%" :: k :: f) (padded w n ++ s) ((k, n) :: F).
Proof.
  intros P R V B H. destruct (padded_numeral C w P n B) as (A & W & D). exact (pt_number C k _ n lo hi _ f s F R V W A D H).
Qed.
Definition ISO : pystr := u "%Y-%m-%d %H:%M:%S".
Definition ISO_F : pystr := u "%Y-%m-%d %H:%M:%S.%f".
(** [clear_signs C]: - : and . are no spaces *)
Theorem C98_round_trip C d : plain C -> c_space C (ch "-") = false -> c_space C (ch ":") = false -> c_space C (ch ".") = false -> is_datetime d ->
  dt_strptime C (dt_str d) (if dt_micro d =? 0 then ISO else ISO_F) = Some (Ok d).
Proof.
  intros P S1 S2 S3 D. pose proof (is_datetime_valid d D) as V.
  assert (B : 1 <= dt_year d <= 9999 /\ 1 <= dt_month d <= 12 /\ 1 <= dt_day d <= 31 /\ 0 <= dt_hour d <= 23 /\ 0 <= dt_minute d <= 59 /\
    0 <= dt_second d <= 59 /\ 0 <= dt_micro d <= 999999).
  { destruct (vdt_vdate d V) as [[V1 V2] V3]. pose proof (dim_bounds (dt_year d) (dt_month d) V1). pose proof (vdt_secs d V). lia. }
  destruct B as (By & Bm & Bd & Bh & Bi & Bs & Bu).
  assert (Sp : forall f s F, no_space_first C f -> prints C f s F -> prints C (u " " ++ f) (u " " ++ s) F).
  { intros f s F Nf H. apply pt_space; try discriminate; try (constructor; [apply (pl_blank C P) | constructor]); assumption. }
  assert (Nf : no_space_first C (u "%H:%M:%S")) by (intros c f' E; injection E as <- _; apply (pl_percent C P)).
  assert (Nf' : no_space_first C (u "%H:%M:%S.%f")) by (intros c f' E; injection E as <- _; apply (pl_percent C P)).
  set (F := [(ch "Y", dt_year d); (ch "m", dt_month d); (ch "d", dt_day d); (ch "H", dt_hour d); (ch "M", dt_minute d); (ch "S", dt_second d)]).
  destruct (Z.eqb_spec (dt_micro d) 0) as [E|E].
  - apply (C98_full_width C _ _ F d P); [| repeat constructor; cbn; intuition discriminate | | exact D].
    + unfold dt_str. rewrite (proj2 (Z.eqb_eq _ _) E).
      apply (pt_padded C (ch "Y") _ 0 9999 4 _ _ _ P); [cbn; tauto | lia | cbn; lia |].
      apply pt_char; [discriminate | exact S1|].
      apply (pt_padded C (ch "m") _ 1 12 2 _ _ _ P); [cbn; tauto | lia | cbn; lia |].
      apply pt_char; [discriminate | exact S1|].
      apply (pt_padded C (ch "d") _ 1 31 2 _ _ _ P); [cbn; tauto | lia | cbn; lia |].
      apply (Sp (u "%H:%M:%S")); [exact Nf|].
      apply (pt_padded C (ch "H") _ 0 23 2 _ _ _ P); [cbn; tauto | lia | cbn; lia |].
      apply pt_char; [discriminate | exact S2|].
      apply (pt_padded C (ch "M") _ 0 59 2 _ _ _ P); [cbn; tauto | lia | cbn; lia |].
      apply pt_char; [discriminate | exact S2|].
      apply (pt_padded C (ch "S") _ 0 59 2 _ _ _ P); [cbn; tauto | lia | cbn; lia |]. constructor.
    + intros k df x I. cbn [In] in I.
      repeat match type of I with _ \/ _ => destruct I as [I|I] end; try contradiction; injection I as <- <- <-; try (left; cbn; tauto).
      right. split; [|exact E]. intros v. cbn. intuition discriminate.
  - apply (C98_full_width C _ _ (F ++ [(ch "f", dt_micro d)]) d P); [| repeat constructor; cbn; intuition discriminate | | exact D].
    + unfold dt_str. rewrite (proj2 (Z.eqb_neq _ _) E).
      apply (pt_padded C (ch "Y") _ 0 9999 4 _ _ _ P); [cbn; tauto | lia | cbn; lia |].
      apply pt_char; [discriminate | exact S1|].
      apply (pt_padded C (ch "m") _ 1 12 2 _ _ _ P); [cbn; tauto | lia | cbn; lia |].
      apply pt_char; [discriminate | exact S1|].
      apply (pt_padded C (ch "d") _ 1 31 2 _ _ _ P); [cbn; tauto | lia | cbn; lia |].
      apply (Sp (u "%H:%M:%S.%f")); [exact Nf'|].
      apply (pt_padded C (ch "H") _ 0 23 2 _ _ _ P); [cbn; tauto | lia | cbn; lia |].
      apply pt_char; [discriminate | exact S2|].
      apply (pt_padded C (ch "M") _ 0 59 2 _ _ _ P); [cbn; tauto | lia | cbn; lia |].
      apply pt_char; [discriminate | exact S2|].
      apply (pt_padded C (ch "S") _ 0 59 2 _ _ _ P); [cbn; tauto | lia | cbn; lia |].
      apply pt_char; [discriminate | exact S3|].
      rewrite <- (app_nil_r (padded 6 (dt_micro d))).
      apply (pt_padded C (ch "f") _ 0 999999 6 _ _ _ P); [cbn; tauto | lia | cbn; lia |]. constructor.
    + intros k df x I. cbn [In] in I.
      repeat match type of I with _ \/ _ => destruct I as [I|I] end; try contradiction; injection I as <- <- <-; left; cbn; tauto.
Qed.
(** The format depends on the date: neither reads the text of every date *)
Lemma plain_ascii : plain ascii_chars.
Proof.
  constructor.
  - intros c x. cbn. destruct (N.leb_spec 48 c); [|discriminate]. destruct (N.leb_spec c 57); [|discriminate]. cbn. intros H1. injection H1 as <-. lia.
  - intros n Hn. cbn [c_digit ascii_chars]. replace (N.leb 48 (Z.to_N (48 + n))) with true by (symmetry; apply N.leb_le; lia).
    replace (N.leb (Z.to_N (48 + n)) 57) with true by (symmetry; apply N.leb_le; lia). cbn [andb]. f_equal. lia.
  - intros n Hn. assert (E : n = 0 \/ n = 1 \/ n = 2 \/ n = 3 \/ n = 4 \/ n = 5 \/ n = 6 \/ n = 7 \/ n = 8 \/ n = 9) by lia.
    repeat match goal with H : _ \/ _ |- _ => destruct H as [->|H] end; subst; reflexivity.
  - split; reflexivity.
  - reflexivity.
  - intros c. cbn. rewrite N.eqb_refl. reflexivity.
Qed.
Theorem C98_two_formats_needed : exists a b, is_datetime a /\ is_datetime b /\
  dt_strptime ascii_chars (dt_str a) ISO = Some (Err EValue) /\ dt_strptime ascii_chars (dt_str b) ISO_F = Some (Err EValue).
Proof.
  exists (mkdt 2024 2 29 7 5 9 250000), (mkdt 2024 2 29 7 5 9 0).
  split; [apply (isdt 2024 2 29 7 5 9 250000); vm_compute; reflexivity|].
  split; [apply (isdt 2024 2 29 7 5 9 0); vm_compute; reflexivity|].
  split; vm_compute; reflexivity.
Qed.
(** Non-vacuous: short numbers, other case, blanks; a repeated directive; a day February does not have *)
Example C98_example :
  dt_strptime ascii_chars (u "2024-2-29t7:5:09.25") (u "%Y-%m-%dT%H:%M:%S.%f") = Some (Ok (mkdt 2024 2 29 7 5 9 250000)) /\
  dt_strptime ascii_chars (u "100%   12/ 3") (u "100%% %m/%d") = Some (Ok (mkdt 1900 12 3 0 0 0 0)) /\
  dt_strptime ascii_chars (u "2023-02-29") (u "%Y-%m-%d") = Some (Err EValue) /\
  dt_strptime ascii_chars (u "1-1") (u "%m-%m") = Some (Err EException) /\
  dt_strptime ascii_chars (u "1") (u "%j") = None /\ dt_str (mkdt 5 1 2 3 4 5 60) = u "0005-01-02 03:04:05.000060".
Proof. repeat split; vm_compute; reflexivity. Qed.
