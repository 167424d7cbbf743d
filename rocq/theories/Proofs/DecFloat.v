From Verif Require Import Model.Base Model.Dec Spec.DecSpec Proofs.BaseFacts Proofs.DecFacts Proofs.DecOps Proofs.DecText.
Local Open Scope Z_scope.

(** A generic numeric text: sign, digits, fraction, exponent text [t] with value [z] *)
Definition frac_text (ds : pystr) : pystr := match ds with [] => [] | _ => u "." ++ ds end.
Definition exp_ok (t : pystr) (z : Z) : Prop :=
  parse_exp t = Some z /\ nodig t /\ match t with c :: _ => c <> ch "." | [] => True end.

Lemma parse_body_gen neg ip fp t z : alld ip -> alld fp -> ip <> [] -> exp_ok t z ->
  parse_body neg (ip ++ frac_text fp ++ t) = Some (mkfd neg (dval 0 (ip ++ fp)) (z - Z.of_nat (List.length fp))).
Proof.
  intros Hi Hf Hne (He & Hnd & Hdot). unfold parse_body.
  destruct fp as [|c fp].
  - cbn [frac_text app]. rewrite span_digits_app by assumption.
    assert (Hx : match t with c :: r' => if N.eqb c (ch ".") then span_digits r' else ([], t) | [] => ([], []) end = ([], t)).
    { destruct t as [|c t]; [reflexivity|]. destruct (N.eqb_spec c (ch ".")); [contradiction | reflexivity]. }
    rewrite Hx, app_nil_r. destruct ip; [congruence|]. rewrite He. reflexivity.
  - unfold frac_text. rewrite <- app_assoc. rewrite span_digits_app by (assumption || reflexivity).
    cbn [u app]. change (N.eqb (N_of_ascii ".") (ch ".")) with true. cbn iota.
    change (c :: fp ++ t) with ((c :: fp) ++ t). rewrite span_digits_app by assumption.
    destruct (ip ++ c :: fp) eqn:E; [destruct ip; discriminate|]. rewrite <- E. rewrite He. reflexivity.
Qed.

Lemma parse_number_gen neg ip fp t z : alld ip -> alld fp -> ip <> [] -> exp_ok t z ->
  parse_number (sgn_str neg ++ ip ++ frac_text fp ++ t) = Some (DFin (mkfd neg (dval 0 (ip ++ fp)) (z - Z.of_nat (List.length fp)))).
Proof.
  intros Hi Hf Hne He. unfold parse_number. rewrite take_sign_sgn.
  - rewrite (parse_body_gen neg ip fp t z) by assumption. reflexivity.
  - destruct ip as [|c ip]; [congruence|]. cbn [app]. apply (alld_In (c :: ip)); [exact Hi | left; reflexivity].
Qed.

Lemma exp_ok_em k : alld k -> k <> [] -> exp_ok (u "e-" ++ k) (- Z.of_N (dval 0 k)).
Proof.
  intros Hk Hne. split; [|split; [reflexivity | discriminate]].
  cbn [u app parse_exp]. change (N.eqb (lower_ascii (N_of_ascii "e")) (ch "e")) with true. cbn iota.
  cbn [take_sign]. change (N.eqb (N_of_ascii "-") (ch "-")) with true. cbn iota.
  pose proof (span_digits_app k [] Hk I) as S. rewrite app_nil_r in S. rewrite S.
  destruct k; [congruence|]. reflexivity.
Qed.
Lemma exp_ok_ep k : alld k -> k <> [] -> exp_ok (u "e+" ++ k) (Z.of_N (dval 0 k)).
Proof.
  intros Hk Hne. split; [|split; [reflexivity | discriminate]].
  cbn [u app parse_exp]. change (N.eqb (lower_ascii (N_of_ascii "e")) (ch "e")) with true. cbn iota.
  cbn [take_sign]. change (N.eqb (N_of_ascii "+") (ch "-")) with false. change (N.eqb (N_of_ascii "+") (ch "+")) with true. cbn iota.
  pose proof (span_digits_app k [] Hk I) as S. rewrite app_nil_r in S. rewrite S.
  destruct k; [congruence|]. reflexivity.
Qed.
Lemma exp_ok_nil : exp_ok [] 0. Proof. repeat split. Qed.

(** lower-case letters allowed too *)
Definition numchar' (c : N) : Prop := numchar c \/ c = ch "e".
Lemma numchar'_space c : numchar' c -> is_space c = false.
Proof. intros [H| ->]; [apply numchar_space; exact H | reflexivity]. Qed.
Lemma clean_numchar' s : (forall c, In c s -> numchar' c) -> remove_char (ch "_") (strip s) = s.
Proof.
  intros H. rewrite strip_id by (intros c Hc; apply numchar'_space, H, Hc).
  apply remove_char_id. intros Hi. apply H in Hi. destruct Hi as [Hi|Hi]; [|discriminate].
  apply (numchar_not _ (ch "_") Hi); reflexivity || discriminate.
Qed.
Lemma in_sgn neg c : In c (sgn_str neg) -> numchar c.
Proof. destruct neg; [|intros []]. intros [<-|[]]. right; left; reflexivity. Qed.
Lemma in_frac ds c : alld ds -> In c (frac_text ds) -> numchar c.
Proof.
  intros Hd. destruct ds as [|x ds]; [intros []|]. intros [<-|H]; [right; right; right; left; reflexivity|].
  exact (alld_numchar _ _ Hd H).
Qed.
Lemma numchar_ne_e c : numchar c -> c <> ch "e".
Proof. intros H. apply (numchar_not _ _ H); reflexivity || discriminate. Qed.

Lemma dval_bound s : alld s -> Z.of_N (dval 0 s) < 10 ^ Z.of_nat (List.length s).
Proof.
  induction s as [|c s IH]; intros Hs; [reflexivity|].
  change (dval 0 (c :: s)) with (dval (10 * 0 + (c - 48)) s). rewrite dval_acc.
  unfold alld in Hs; cbn [forallb] in Hs. apply andb_true_iff in Hs as [Hc Hs]. specialize (IH Hs).
  unfold is_digit in Hc. apply andb_true_iff in Hc as [H1 H2]. apply N.leb_le in H1, H2.
  cbn [List.length]. rewrite Nat2Z.inj_succ, Z.pow_succ_r by lia.
  rewrite N2Z.inj_add, N2Z.inj_mul, N2Z.inj_pow, nat_N_Z. change (Z.of_N 10) with 10.
  pose proof (p10_pos (Z.of_nat (List.length s)) ltac:(lia)). nia.
Qed.
Lemma flen_dval s neg e : alld s -> s <> [] -> flen (mkfd neg (dval 0 s) e) <= Z.of_nat (List.length s).
Proof.
  intros Hs Hne. unfold flen; cbn [fcoef]. apply ndigits_le_Z; [destruct s; [congruence | cbn [List.length]; lia]|].
  apply dval_bound; exact Hs.
Qed.

(** Texts without "e-": read exactly. *)
Lemma cd_of_text neg ip fp t z :
  alld ip -> alld fp -> ip <> [] -> exp_ok t z ->
  (forall c, In c t -> numchar' c) -> -1000000 <= z <= 1000000 ->
  (List.length ip <= 2000)%nat -> (List.length fp <= 2000)%nat ->
  stores (do d <- dec_of_str (sgn_str neg ++ ip ++ frac_text fp ++ t); fix_precision d)
    (store (floor_units (mkfd neg (dval 0 (ip ++ fp)) (z - Z.of_nat (List.length fp))))).
Proof.
  intros Hi Hf Hne He Ht Hz Hl1 Hl2. unfold dec_of_str. rewrite clean_numchar'.
  2: { intros c. rewrite !in_app_iff. intros [H|[H|[H|H]]].
       - left; exact (in_sgn _ _ H).
       - left; exact (alld_numchar _ _ Hi H).
       - left; exact (in_frac _ _ Hf H).
       - exact (Ht c H). }
  rewrite (parse_number_gen neg ip fp t z) by assumption.
  pose proof (flen_dval (ip ++ fp) neg (z - Z.of_nat (List.length fp))) as HF.
  rewrite app_length in HF. specialize (HF ltac:(apply alld_app; auto) ltac:(destruct ip; [congruence | discriminate])).
  unfold adjusted; cbn [fexp].
  set (d := mkfd _ _ _) in *.
  destruct (Z.ltb_spec 999999999999999999 (z - Z.of_nat (List.length fp) + flen d - 1)) as [|_]; [lia|].
  destruct (Z.ltb_spec (z - Z.of_nat (List.length fp)) (-1999999999999999997)) as [|_]; [lia|].
  cbn [orb bindr]. apply fix_precision_stores.
Qed.

Lemma split_em_app x y : ~ In (ch "e") x -> split_em (x ++ u "e-" ++ y) = Some (x, y).
Proof.
  induction x as [|a x IH]; intros H; [reflexivity|].
  cbn [app]. assert (Ha : a <> ch "e") by (intros ->; apply H; left; reflexivity).
  specialize (IH (fun Hi => H (or_intror Hi))).
  destruct (x ++ u "e-" ++ y) as [|b l] eqn:E; [destruct x; discriminate|].
  cbn [split_em]. destruct (N.eqb_spec a (ch "e")) as [|_]; [contradiction|]. cbn [andb].
  cbn [split_em] in IH. rewrite IH. reflexivity.
Qed.
Lemma split_em_app_plain x y : ~ In (ch "e") x -> match y with c :: _ => c <> ch "-" | [] => True end ->
  ~ In (ch "e") y -> split_em (x ++ ch "e" :: y) = None.
Proof.
  intros Hx Hy Hy'. induction x as [|a x IH].
  - cbn [app split_em]. destruct y as [|b y]; [reflexivity|].
    destruct (N.eqb_spec b (ch "-")) as [|_]; [contradiction|]. rewrite andb_false_r.
    rewrite split_em_none by exact Hy'. reflexivity.
  - assert (Ha : a <> ch "e") by (intros ->; apply Hx; left; reflexivity).
    specialize (IH (fun Hi => Hx (or_intror Hi))). cbn [app].
    destruct (x ++ ch "e" :: y) as [|b l] eqn:E; [destruct x; discriminate|].
    cbn [split_em]. destruct (N.eqb_spec a (ch "e")) as [|_]; [contradiction|]. cbn [andb].
    cbn [split_em] in IH. rewrite IH. reflexivity.
Qed.

Lemma underscores_clean p s : ~ In (ch "_") s -> underscores_ok p s = true.
Proof.
  revert p; induction s as [|c s IH]; intros p H; [reflexivity|]. cbn [underscores_ok].
  destruct (N.eqb_spec c (ch "_")) as [->|_]; [exfalso; apply H; left; reflexivity|].
  apply IH. intros Hi; apply H; right; exact Hi.
Qed.
Lemma numchar_no_underscore s : (forall c, In c s -> numchar c) -> ~ In (ch "_") s.
Proof. intros H Hi. apply H in Hi. apply (numchar_not _ (ch "_") Hi); reflexivity || discriminate. Qed.

Lemma int_of_digits k : alld k -> k <> [] -> (List.length k <= 3)%nat -> int_of_str k = Ok (Z.of_N (dval 0 k)).
Proof.
  intros Hk Hne Hl. unfold int_of_str.
  rewrite strip_c_id by (intros c Hc; apply cspace_space, numchar_space; exact (alld_numchar _ _ Hk Hc)).
  assert (Hu : ~ In (ch "_") k) by (apply numchar_no_underscore; intros c Hc; exact (alld_numchar _ _ Hk Hc)).
  rewrite underscores_clean, remove_char_id by exact Hu. cbn [negb].
  pose proof (take_sign_sgn false k) as T. cbn [sgn_str app] in T. rewrite T.
  2: { destruct k as [|c k]; [congruence|]. apply (alld_In (c :: k)); [exact Hk | left; reflexivity]. }
  unfold N_of_digits. destruct k as [|c k]; [congruence|].
  rewrite N_of_digits_acc_dval by exact Hk. rewrite (proj2 (Z.leb_le _ _)) by lia. reflexivity.
Qed.

Lemma float_gt9_text neg ip fp : alld ip -> alld fp -> ip <> [] ->
  float_gt9 (sgn_str neg ++ ip ++ frac_text fp) =
  Ok (fd_ltb nine_plus (mkfd neg (dval 0 (ip ++ fp)) (0 - Z.of_nat (List.length fp)))).
Proof.
  intros Hi Hf Hne. unfold float_gt9.
  assert (Hc : forall c, In c (sgn_str neg ++ ip ++ frac_text fp) -> numchar c).
  { intros c. rewrite !in_app_iff. intros [H|[H|H]]; [exact (in_sgn _ _ H) | exact (alld_numchar _ _ Hi H) | exact (in_frac _ _ Hf H)]. }
  rewrite strip_c_id by (intros c H; apply cspace_space, numchar_space, Hc, H).
  pose proof (numchar_no_underscore _ Hc) as Hu. rewrite underscores_clean, remove_char_id by exact Hu. cbn [negb].
  pose proof (parse_number_gen neg ip fp [] 0 Hi Hf Hne exp_ok_nil) as P. rewrite app_nil_r in P. rewrite P. reflexivity.
Qed.

Lemma remove_dot ip fp : alld ip -> alld fp -> remove_char (ch ".") (ip ++ frac_text fp) = ip ++ fp.
Proof.
  intros Hi Hf.
  assert (Hx : forall s, alld s -> remove_char (ch ".") s = s).
  { intros s Hs. apply remove_char_id. intros Hin. apply (alld_In _ _ Hs) in Hin. discriminate. }
  unfold remove_char in *. rewrite filter_app, (Hx ip Hi). f_equal.
  destruct fp as [|c fp]; [reflexivity|]. unfold frac_text. rewrite filter_app.
  transitivity (@nil N ++ filter (fun c0 => negb (c0 =? ch ".")%N) (c :: fp)); [reflexivity|]. cbn [app]. exact (Hx (c :: fp) Hf).
Qed.

Lemma floor_units_ext a b : fneg a = fneg b -> fcoef a = fcoef b -> fexp a = fexp b -> floor_units a = floor_units b.
Proof. destruct a, b; cbn; intros; subst; reflexivity. Qed.

(** Non-negative texts d[.ddd]e-k with one leading digit: read exactly too. *)
Lemma cd_of_em d0 fp k :
  is_digit d0 = true -> alld fp -> (List.length fp <= 400)%nat ->
  alld k -> (1 <= List.length k <= 3)%nat -> (1 <= dval 0 k)%N ->
  stores (cd_of_str ([d0] ++ frac_text fp ++ u "e-" ++ k))
    (store (floor_units (mkfd false (dval 0 (d0 :: fp)) (- Z.of_N (dval 0 k) - Z.of_nat (List.length fp))))).
Proof.
  intros Hd0 Hf Hfl Hk Hkl Hk1.
  assert (Hi : alld [d0]) by (unfold alld; cbn; rewrite Hd0; reflexivity).
  assert (Hkne : k <> []) by (destruct k; [cbn in Hkl; lia | discriminate]).
  assert (Hb3 : Z.of_N (dval 0 k) < 1000).
  { pose proof (dval_bound k Hk). assert (10 ^ Z.of_nat (List.length k) <= 10 ^ 3) by (apply p10_le; lia). lia. }
  unfold cd_of_str, neg_sci_not, split_em2. rewrite app_assoc, split_em_app.
  2: { rewrite in_app_iff. intros [H|H].
       - apply (alld_numchar _ _ Hi), numchar_ne_e in H. congruence.
       - apply (in_frac _ _ Hf), numchar_ne_e in H. congruence. }
  rewrite split_em_none by (intros H; apply (alld_numchar _ _ Hk), numchar_ne_e in H; congruence).
  pose proof (float_gt9_text false [d0] fp Hi Hf ltac:(discriminate)) as F. cbn [sgn_str app] in F.
  change ([d0] ++ frac_text fp) with (d0 :: frac_text fp). rewrite F.
  destruct (fd_ltb nine_plus _).
  - pose proof (cd_of_text false [d0] fp (u "e-" ++ k) (- Z.of_N (dval 0 k)) Hi Hf ltac:(discriminate) (exp_ok_em k Hk Hkne)) as T.
    cbn [sgn_str app] in T. cbn [app]. apply T; try lia.
    + intros c. cbn [u]. intros [<-|[<-|H]]; [right; reflexivity | left; right; left; reflexivity | left; exact (alld_numchar _ _ Hk H)].
    + cbn [List.length]; lia.
  - rewrite int_of_digits by (assumption || lia).
    change (d0 :: frac_text fp) with ([d0] ++ frac_text fp). rewrite remove_dot by assumption.
    destruct (Z.ltb_spec 0 (Z.of_N (dval 0 k))) as [_|]; [|lia].
    set (n := Z.of_N (dval 0 k)).
    pose proof (cd_of_text false (u "0") (zeros (n - 1) ++ d0 :: fp) [] 0) as T.
    rewrite app_nil_r in T. cbn [sgn_str app] in T.
    assert (Hall : alld (zeros (n - 1) ++ d0 :: fp)).
    { apply alld_app. split; [apply alld_zeros|]. unfold alld; cbn [forallb]. rewrite Hd0. exact Hf. }
    specialize (T eq_refl Hall ltac:(discriminate) exp_ok_nil ltac:(intros c []) ltac:(lia)).
    assert (Hlen : Z.of_nat (List.length (zeros (n - 1) ++ d0 :: fp)) = n + Z.of_nat (List.length fp)).
    { rewrite app_length, Nat2Z.inj_add, zeros_length by lia. cbn [List.length]. lia. }
    specialize (T ltac:(cbn; lia) ltac:(lia)).
    assert (Htxt : u "0" ++ frac_text (zeros (n - 1) ++ d0 :: fp) = u "0." ++ zeros (n - 1) ++ [d0] ++ fp).
    { cbn [u]. destruct (zeros (n - 1)) as [|x l]; reflexivity. }
    rewrite Htxt in T.
    replace (floor_units (mkfd false (dval 0 (u "0" ++ zeros (n - 1) ++ d0 :: fp)) (0 - Z.of_nat (List.length (zeros (n - 1) ++ d0 :: fp)))))
      with (floor_units (mkfd false (dval 0 (d0 :: fp)) (- n - Z.of_nat (List.length fp)))) in T; [exact T|].
    apply floor_units_ext; cbn [fneg fcoef fexp]; [reflexivity | | lia].
    change (u "0") with (zeros 1). rewrite !dval_zeros_l. reflexivity.
Qed.

(** Negative texts -d[.ddd]e-k always fail. *)
Lemma cd_of_neg_em d0 fp k :
  is_digit d0 = true -> alld fp -> alld k -> (1 <= List.length k <= 3)%nat -> (1 <= dval 0 k)%N ->
  cd_of_str (u "-" ++ [d0] ++ frac_text fp ++ u "e-" ++ k) = Err EInvalidOperation.
Proof.
  intros Hd0 Hf Hk Hkl Hk1.
  assert (Hi : alld [d0]) by (unfold alld; cbn; rewrite Hd0; reflexivity).
  assert (Hkne : k <> []) by (destruct k; [cbn in Hkl; lia | discriminate]).
  unfold cd_of_str, neg_sci_not, split_em2.
  replace (u "-" ++ [d0] ++ frac_text fp ++ u "e-" ++ k) with ((u "-" ++ [d0] ++ frac_text fp) ++ u "e-" ++ k)
    by (rewrite <- !app_assoc; reflexivity).
  rewrite split_em_app.
  2: { rewrite !in_app_iff. intros [H|[H|H]].
       - cbn in H. destruct H as [H|[]]; discriminate.
       - apply (alld_numchar _ _ Hi), numchar_ne_e in H. congruence.
       - apply (in_frac _ _ Hf), numchar_ne_e in H. congruence. }
  rewrite split_em_none by (intros H; apply (alld_numchar _ _ Hk), numchar_ne_e in H; congruence).
  change (u "-" ++ [d0] ++ frac_text fp) with (sgn_str true ++ [d0] ++ frac_text fp).
  rewrite (float_gt9_text true [d0] fp Hi Hf ltac:(discriminate)).
  assert (Hlt : fd_ltb nine_plus (mkfd true (dval 0 ([d0] ++ fp)) (0 - Z.of_nat (List.length fp))) = false).
  { unfold fd_ltb. set (d := mkfd _ _ _).
    rewrite (fd_compare_at nine_plus d (Z.min (-50) (fexp d))) by (unfold nine_plus; cbn [fexp]; lia).
    assert (Hp : 0 < 10 ^ (fexp d - Z.min (-50) (fexp d))) by (apply p10_pos; lia).
    assert (Hp2 : 0 < 10 ^ (fexp nine_plus - Z.min (-50) (fexp d))) by (apply p10_pos; unfold nine_plus; cbn [fexp]; lia).
    assert (Hs : scoef d <= 0) by (unfold scoef, d; cbn [fneg fcoef]; lia).
    assert (Hn : 0 < scoef nine_plus) by reflexivity.
    destruct (Z.compare_spec (scoef nine_plus * 10 ^ (fexp nine_plus - Z.min (-50) (fexp d))) (scoef d * 10 ^ (fexp d - Z.min (-50) (fexp d)))) as [E|E|E]; [reflexivity | nia | reflexivity]. }
  rewrite Hlt. rewrite int_of_digits by (assumption || lia).
  destruct (Z.ltb_spec 0 (Z.of_N (dval 0 k))) as [_|]; [|lia].
  set (n := Z.of_N (dval 0 k)).
  assert (Hrem : remove_char (ch ".") (sgn_str true ++ [d0] ++ frac_text fp) = u "-" ++ [d0] ++ fp).
  { unfold remove_char. rewrite filter_app. fold (remove_char (ch ".") ([d0] ++ frac_text fp)). rewrite remove_dot by assumption. reflexivity. }
  rewrite Hrem. unfold dec_of_str.
  rewrite clean_numchar.
  2: { intros c. rewrite !in_app_iff. intros [H|[H|[H|[H|H]]]].
       - cbn in H. destruct H as [<-|[<-|[]]]; [left; reflexivity | right; right; right; left; reflexivity].
       - exact (alld_numchar _ _ (alld_zeros _) H).
       - destruct H as [<-|[]]. right; left; reflexivity.
       - exact (alld_numchar _ _ Hi H).
       - exact (alld_numchar _ _ Hf H). }
  set (rest := u "-" ++ [d0] ++ fp).
  assert (P : parse_number (u "0." ++ zeros (n - 1) ++ rest) = None).
  { unfold parse_number. cbn [u app take_sign].
    change (N.eqb (N_of_ascii "0") (ch "-")) with false. change (N.eqb (N_of_ascii "0") (ch "+")) with false. cbn iota.
    unfold parse_body. pose proof (span_digits_app (u "0") (ch "." :: zeros (n - 1) ++ rest) eq_refl eq_refl) as S.
    cbn [u app] in S. change (N_of_ascii ".") with (ch ".") . rewrite S. rewrite N.eqb_refl.
    rewrite span_digits_app by (try apply alld_zeros; reflexivity). cbn [app].
    assert (parse_exp rest = None) as -> by reflexivity. reflexivity. }
  rewrite P. reflexivity.
Qed.

(** ** The theorem on float texts *)
Lemma frac_text_spec ds : match ds with [] => [] | x :: l => u "." ++ (x :: l) end = frac_text ds.
Proof. destruct ds; reflexivity. Qed.

Lemma frepr_text_eq neg ip fp ex : frepr_text (mkfrepr neg ip fp ex) =
  sgn_str neg ++ ip ++ frac_text fp ++ (match ex with None => [] | Some (true, k) => u "e-" ++ k | Some (false, k) => u "e+" ++ k end).
Proof. unfold frepr_text; cbn [fr_neg fr_int fr_frac fr_exp]. rewrite frac_text_spec. destruct neg; reflexivity. Qed.

Lemma cd_of_float_stores f : frepr_ok f ->
  (fr_neg f = false \/ match fr_exp f with Some (true, _) => False | _ => True end) ->
  stores (cd_of_float (frepr_text f)) (store (floor_units (frepr_value f))).
Proof.
  intros (Hi & Hf & Hne & Hl1 & Hl2 & He) Hcase.
  destruct f as [neg ip fp ex]; cbn [fr_neg fr_int fr_frac fr_exp] in *.
  unfold frepr_value, cd_of_float; rewrite frepr_text_eq; cbn [fr_neg fr_int fr_frac fr_exp].
  assert (Hnum : forall c, In c (sgn_str neg ++ ip ++ frac_text fp) -> numchar c).
  { intros c. rewrite !in_app_iff. intros [H|[H|H]]; [exact (in_sgn _ _ H) | exact (alld_numchar _ _ Hi H) | exact (in_frac _ _ Hf H)]. }
  destruct ex as [[[|] k]|].
  - destruct Hcase as [->|[]]. destruct He as (Hk & Hkl & H1 & Hkv).
    destruct ip as [|d0 [|? ?]]; try (cbn in H1; lia).
    cbn [sgn_str app]. apply (cd_of_em d0 fp k); try assumption; try lia.
    unfold alld in Hi; cbn in Hi. rewrite andb_true_r in Hi. exact Hi.
  - destruct He as (Hk & Hkl & H1 & Hkv).
    assert (Hkne : k <> []) by (destruct k; [cbn in Hkl; lia | discriminate]).
    assert (Hb3 : Z.of_N (dval 0 k) < 1000).
    { pose proof (dval_bound k Hk). assert (10 ^ Z.of_nat (List.length k) <= 10 ^ 3) by (apply p10_le; lia). lia. }
    unfold cd_of_str.
    assert (Hns : neg_sci_not (sgn_str neg ++ ip ++ frac_text fp ++ u "e+" ++ k) = sgn_str neg ++ ip ++ frac_text fp ++ u "e+" ++ k).
    { unfold neg_sci_not, split_em2.
      replace (sgn_str neg ++ ip ++ frac_text fp ++ u "e+" ++ k) with ((sgn_str neg ++ ip ++ frac_text fp) ++ ch "e" :: (ch "+" :: k))
        by (rewrite <- !app_assoc; reflexivity).
      rewrite split_em_app_plain; [reflexivity | | discriminate |].
      - intros H. apply Hnum, numchar_ne_e in H. congruence.
      - intros [H|H]; [discriminate|]. apply (alld_numchar _ _ Hk), numchar_ne_e in H. congruence. }
    rewrite Hns. change (digits_value k) with (dval 0 k). change (digits_value (ip ++ fp)) with (dval 0 (ip ++ fp)).
    apply cd_of_text; try assumption; try lia; [apply exp_ok_ep; assumption|].
    intros c. cbn [u app]. intros [<-|[<-|H]]; [right; reflexivity | left; right; right; left; reflexivity | left; exact (alld_numchar _ _ Hk H)].
  - unfold cd_of_str. rewrite neg_sci_not_id.
    + change (digits_value (ip ++ fp)) with (dval 0 (ip ++ fp)).
      apply cd_of_text; try assumption; try lia; [apply exp_ok_nil | intros c []].
    + rewrite app_nil_r. intros H. apply Hnum, numchar_ne_e in H. congruence.
Qed.
Lemma cd_of_float_neg_em f : frepr_ok f -> fr_neg f = true ->
  match fr_exp f with Some (true, _) => True | _ => False end ->
  cd_of_float (frepr_text f) = Err EInvalidOperation.
Proof.
  intros (Hi & Hf & Hne & Hl1 & Hl2 & He) Hneg Hex.
  destruct f as [neg ip fp ex]; cbn [fr_neg fr_int fr_frac fr_exp] in *. subst neg.
  destruct ex as [[[|] k]|]; try contradiction. destruct He as (Hk & Hkl & H1 & Hkv).
  destruct ip as [|d0 [|? ?]]; try (cbn in H1; lia).
  unfold cd_of_float; rewrite frepr_text_eq.
  apply cd_of_neg_em; try assumption; try lia.
  unfold alld in Hi; cbn in Hi. rewrite andb_true_r in Hi. exact Hi.
Qed.
