(** * Facts about Model/TimeText.v *)
From Coq Require Import Lia FinFun.
From Verif Require Import Model.Base Model.Time Model.TimeText Spec.TimeTextSpec.
Local Open Scope Z_scope.
Local Notation length := List.length (only parsing).

Section facts.
Context (C : chars) (P : plain C).

(** ** Numbers *)
Definition digits_val (t : pystr) (a : Z) : Z := fold_left (fun acc c => acc * 10 + digit_value C c) t a.
Lemma numeral_digits t v : numeral C t v -> digits_val t 0 = v /\ Forall (fun c => c_digit C c <> None) t.
Proof.
  induction 1 as [|s v c x H [IH1 IH2] E]; [split; [reflexivity | constructor]|].
  unfold digits_val in *. rewrite fold_left_app, IH1. cbn [fold_left]. unfold digit_value. rewrite E.
  split; [reflexivity|]. apply Forall_app. split; [exact IH2|]. constructor; [congruence | constructor].
Qed.
Lemma digits_numeral t : Forall (fun c => c_digit C c <> None) t -> numeral C t (digits_val t 0).
Proof.
  induction t as [|c t IH] using rev_ind; intros H; [constructor|].
  apply Forall_app in H as [H1 H2]. inversion_clear H2 as [|? ? H3 _].
  unfold digits_val in *. rewrite fold_left_app. cbn [fold_left]. destruct (c_digit C c) as [x|] eqn:E; [|congruence].
  replace (digit_value C c) with x by (unfold digit_value; rewrite E; reflexivity). apply num_snoc; [exact (IH H1) | exact E].
Qed.
Lemma digits_not_blank t : Forall (fun c => c_digit C c <> None) t ->
  (match t with c :: s' => if N.eqb c (ch " ") then s' else t | [] => t end) = t.
Proof.
  destruct t as [|c t]; [reflexivity|]. intros H. inversion_clear H as [|? ? H1 _].
  destruct (N.eqb_spec c (ch " ")) as [->|]; [|reflexivity]. exfalso. apply H1. apply (pl_blank C P).
Qed.
Lemma int_group t v : numeral C t v -> int_of_group C t = v.
Proof.
  intros H. destruct (numeral_digits t v H) as [E D]. unfold int_of_group. rewrite (digits_not_blank t D). exact E.
Qed.
Lemma int_group_blank t v : numeral C t v -> int_of_group C (ch " " :: t) = v.
Proof. intros H. destruct (numeral_digits t v H) as [E D]. exact E. Qed.
Lemma digits_zeros t n a : digits_val (t ++ repeat (ch "0") n) a = digits_val t a * 10 ^ Z.of_nat n.
Proof.
  unfold digits_val. rewrite fold_left_app. generalize (fold_left (fun acc c => acc * 10 + digit_value C c) t a) as b.
  induction n as [|n IH]; intros b; cbn [repeat fold_left]; [lia|].
  rewrite IH. unfold digit_value. change (ch "0") with (Z.to_N (48 + 0)). rewrite (pl_digit C P 0) by lia.
  rewrite Nat2Z.inj_succ, Z.pow_succ_r by lia. lia.
Qed.
Lemma frac_group t v : numeral C t v -> width t <= 6 ->
  int_of_group C (t ++ repeat (ch "0") (6 - length t)) = v * 10 ^ (6 - width t).
Proof.
  intros H W. unfold width in *. destruct (numeral_digits t v H) as [E D]. unfold int_of_group.
  rewrite digits_not_blank.
  - fold (digits_val (t ++ repeat (ch "0") (6 - length t)) 0). rewrite digits_zeros, E. f_equal. f_equal. lia.
  - apply Forall_app. split; [exact D|]. apply Forall_forall. intros c Hc. apply repeat_spec in Hc. subst c.
    change (ch "0") with (Z.to_N (48 + 0)). rewrite (pl_digit C P 0) by lia. discriminate.
Qed.
Lemma ascii_digit c : 48 <= Z.of_N c <= 57 -> c_digit C c = Some (Z.of_N c - 48) /\ c_space C c = false.
Proof.
  intros H. replace c with (Z.to_N (48 + (Z.of_N c - 48))) at 1 3 by lia.
  split; [apply (pl_digit C P) | apply (pl_dspace C P)]; lia.
Qed.

(** ** Classes *)
(** classes of digits only *)
Definition digit_cls (k : cls) : Prop := match k with CRange lo hi => 48 <= Z.of_N lo /\ Z.of_N hi <= 57 | CDig => True end.
Lemma take_cls_spec ks : forall s a r, take_cls C ks s = Some (a, r) ->
  s = a ++ r /\ length a = length ks /\ (Forall digit_cls ks -> Forall (fun c => c_digit C c <> None) a).
Proof.
  induction ks as [|k ks IH]; intros s a r; cbn [take_cls].
  - intros H. injection H as <- <-. repeat split. constructor.
  - destruct s as [|c s]; [discriminate|]. destruct (in_cls C k c) eqn:E; [|discriminate].
    destruct (take_cls C ks s) as [[a' r']|] eqn:T; [|discriminate]. intros H. injection H as <- <-.
    destruct (IH _ _ _ T) as (-> & L & D). split; [reflexivity|]. split; [cbn; lia|].
    intros F. inversion_clear F as [|? ? F1 F2]. constructor; [|exact (D F2)].
    destruct k as [lo hi|]; cbn in E, F1.
    + apply andb_true_iff in E as [E1 E2]. apply N.leb_le in E1, E2.
      destruct (ascii_digit c ltac:(lia)) as [E3 _]. congruence.
    + destruct (c_digit C c); [discriminate | discriminate E].
Qed.
Definition dir_char (d : directive) : N :=
  match d with DY => ch "Y" | Dm => ch "m" | Dd => ch "d" | DH => ch "H" | DM => ch "M" | DS => ch "S" | Df => ch "f" end.
Definition group_value (d : directive) (t : pystr) : Z :=
  match d with Df => int_of_group C (t ++ repeat (ch "0") (6 - length t)) | _ => int_of_group C t end.
Lemma directive_char k d : directive_of k = Some d -> k = dir_char d.
Proof.
  unfold directive_of. repeat match goal with |- context [N.eqb ?a ?b] => destruct (N.eqb_spec a b) as [->|]; [intros H; injection H as <-; reflexivity|] end.
  discriminate.
Qed.
Lemma char_directive d : directive_of (dir_char d) = Some d.
Proof. destruct d; reflexivity. Qed.
Lemma dir_char_inj a b : dir_char a = dir_char b -> a = b.
Proof. intros H. pose proof (char_directive a) as E. rewrite H, char_directive in E. congruence. Qed.
Lemma dir_eqb_spec a b : dir_eqb a b = true <-> a = b.
Proof. split; [destruct a, b; try discriminate; reflexivity | intros ->; destruct b; reflexivity]. Qed.
(** what an alternative of a directive matches is a number written for it *)
Lemma first_some_in {A B} (f : A -> option B) l b : first_some f l = Some b -> exists x, In x l /\ f x = Some b.
Proof.
  induction l as [|x l IH]; cbn; [discriminate|]. destruct (f x) as [b'|] eqn:E.
  - intros H. exists x. split; [left; reflexivity | congruence].
  - intros H. destruct (IH H) as (y & I & F). exists y. split; [right; exact I | exact F].
Qed.
Lemma alternative_written d ks s a r : In ks (alternatives d) -> take_cls C ks s = Some (a, r) ->
  s = a ++ r /\ written C (dir_char d) a (group_value d a).
Proof.
  intros I T. destruct (take_cls_spec ks s a r T) as (E & L & D). split; [exact E|].
  assert (Dg : forall c, (48 <= Z.of_N c <= 57) -> digit_cls (CRange c c)) by (intros c Hc; cbn; lia).
  assert (Two : Forall digit_cls ks -> (1 <= length ks <= 2)%nat -> In (dir_char d) (u "mdHMS") -> d <> Df -> written C (dir_char d) a (group_value d a)).
  { intros F W I2 Nd. specialize (D F). pose proof (digits_numeral a D) as Nu. apply wr_two; [exact I2 | unfold width; lia|].
    replace (group_value d a) with (int_of_group C a) by (destruct d; congruence || reflexivity).
    rewrite (int_group a _ Nu). exact Nu. }
  assert (Fr : Forall digit_cls ks -> (1 <= length ks <= 6)%nat -> d = Df -> written C (dir_char d) a (group_value d a)).
  { intros F W ->. specialize (D F). pose proof (digits_numeral a D) as Nu. cbn [group_value dir_char].
    rewrite (frac_group a _ Nu) by (unfold width; lia). apply wr_frac; [unfold width; lia | exact Nu]. }
  destruct d; cbn [alternatives In map] in I;
    repeat match goal with H : _ \/ _ |- _ => destruct H as [<-|H] end; try contradiction;
    try (apply Two; [repeat constructor; cbn; lia | cbn; lia | cbn; tauto | discriminate]);
    try (apply Fr; [repeat constructor; cbn; lia | cbn; lia | reflexivity]).
  - specialize (D ltac:(repeat constructor)). pose proof (digits_numeral a D) as Nu. apply wr_year; [unfold width; rewrite L; reflexivity|].
    cbn [group_value]. rewrite (int_group a _ Nu). exact Nu.
  - cbn [take_cls] in T. destruct s as [|c1 s1]; [discriminate|]. destruct (in_cls C (r1 " ") c1) eqn:E1; [|discriminate].
    destruct s1 as [|c2 s2]; [discriminate|]. destruct (in_cls C (rg "1" "9") c2) eqn:E2; [|discriminate].
    injection T as <- <-. cbn in E1, E2. apply andb_true_iff in E1 as [A1 A2], E2 as [B1 B2]. apply N.leb_le in A1, A2, B1, B2.
    assert (c1 = ch " ") by (cbn; lia). subst c1.
    assert (Forall (fun c => c_digit C c <> None) [c2]) as F.
    { constructor; [|constructor]. destruct (ascii_digit c2 ltac:(lia)) as [E3 _]. congruence. }
    pose proof (digits_numeral [c2] F) as Nu. cbn [group_value]. rewrite (int_group_blank [c2] _ Nu).
    apply wr_day; [reflexivity | exact Nu].
Qed.

(** ** Formats *)
Definition no_space_first (f : pystr) : Prop := forall c f', f = c :: f' -> c_space C c = false.
Lemma parse_insp f : no_space_first f -> parse_format C true f = parse_format C false f.
Proof.
  destruct f as [|c f]; [reflexivity|]. intros H. cbn [parse_format]. rewrite (H c f eq_refl). reflexivity.
Qed.
Lemma parse_spaces w f : Forall (fun c => c_space C c = true) w -> parse_format C true (w ++ f) = parse_format C true f.
Proof.
  induction 1 as [|c w Hc Hw IH]; [reflexivity|]. cbn [app parse_format].
  destruct (N.eqb_spec c (ch "%")) as [->|]; [rewrite (pl_percent C P) in Hc; discriminate Hc|]. rewrite Hc. exact IH.
Qed.
Lemma split_spaces f : exists w f', f = w ++ f' /\ Forall (fun c => c_space C c = true) w /\ no_space_first f'.
Proof.
  induction f as [|c f (w & f' & E & F & N)].
  - exists [], []. split; [reflexivity|]. split; [constructor|]. intros c f' H. discriminate H.
  - destruct (c_space C c) eqn:S.
    + exists (c :: w), f'. split; [cbn; congruence|]. split; [constructor; assumption | exact N].
    + exists [], (c :: f). split; [reflexivity|]. split; [constructor|]. intros c' f'' H. congruence.
Qed.
Lemma parse_space c w f : c_space C c = true -> Forall (fun c => c_space C c = true) w -> no_space_first f ->
  parse_format C false (c :: w ++ f) = pcons TSpace (parse_format C false f).
Proof.
  intros Hc Hw N. cbn [parse_format]. destruct (N.eqb_spec c (ch "%")) as [->|]; [rewrite (pl_percent C P) in Hc; discriminate Hc|].
  rewrite Hc, parse_spaces, parse_insp by assumption. reflexivity.
Qed.
Lemma pcons_toks t p l : pcons t p = PToks l -> exists l', p = PToks l' /\ l = t :: l'.
Proof. destruct p; cbn; try discriminate. intros H. injection H as <-. exists l0. split; reflexivity. Qed.

(** the groups of a match, as directive characters with values *)
Definition values (g : list (directive * pystr)) : list (N * Z) :=
  map (fun x => (dir_char (fst x), group_value (fst x) (snd x))) g.
Fixpoint dirs (l : list tok) : list directive :=
  match l with TDir d :: l' => d :: dirs l' | _ :: l' => dirs l' | [] => [] end.
Lemma skipn_spaces n s : (n <= spaces C s)%nat -> exists w, s = w ++ skipn n s /\ length w = n /\ Forall (fun c => c_space C c = true) w.
Proof.
  revert s. induction n as [|n IH]; intros s H.
  - exists []. split; [reflexivity|]. split; [reflexivity | constructor].
  - destruct s as [|c s]; cbn [spaces] in H; [lia|]. destruct (c_space C c) eqn:E; [|lia].
    destruct (IH s ltac:(lia)) as (w & E1 & L & F). exists (c :: w). cbn [skipn app List.length]. split; [congruence|].
    split; [lia | constructor; assumption].
Qed.
Lemma match_spells n : forall f l s g e, (length f <= n)%nat -> parse_format C false f = PToks l ->
  match_toks C l s = Some (g, e) ->
  exists s0, s = s0 ++ e /\ spells C f s0 (values g) /\ map fst g = dirs l.
Proof.
  induction n as [|n IH]; intros f l s g e Hn Hp Hm.
  - destruct f; [|cbn in Hn; lia]. cbn in Hp. injection Hp as <-. cbn in Hm. injection Hm as <- <-.
    exists []. split; [reflexivity|]. split; [constructor | reflexivity].
  - destruct f as [|c f]; [cbn in Hp; injection Hp as <-; cbn in Hm; injection Hm as <- <-; exists []; split; [reflexivity|]; split; [constructor | reflexivity]|].
    destruct (c_space C c) eqn:Sc.
    + destruct (split_spaces f) as (w & f' & -> & Fw & Nf). rewrite (parse_space c w f' Sc Fw Nf) in Hp.
      apply pcons_toks in Hp as (l' & Hp & ->). cbn [match_toks] in Hm.
      apply first_some_in in Hm as (k & Ik & Hm). apply in_rev, in_seq in Ik.
      destruct (skipn_spaces k s ltac:(lia)) as (w' & Es & Lw & Fw').
      destruct (IH f' l' _ g e ltac:(cbn in Hn; rewrite app_length in Hn; lia) Hp Hm) as (s0 & E0 & Sp & Di).
      exists (w' ++ s0). split; [rewrite <- app_assoc; congruence|]. split; [|exact Di].
      change (c :: w ++ f') with ((c :: w) ++ f'). apply sp_space; try assumption; [discriminate | | constructor; assumption].
      intros ->. cbn in Lw. lia.
    + cbn [parse_format] in Hp. destruct (N.eqb_spec c (ch "%")) as [->|Nc].
      * destruct f as [|k f]; [discriminate Hp|]. destruct (N.eqb_spec k (ch "%")) as [->|Nk].
        -- apply pcons_toks in Hp as (l' & Hp & ->). cbn [match_toks] in Hm. destruct s as [|c' s]; [discriminate|].
           destruct (c_same C (ch "%") c') eqn:Sa; [|discriminate].
           destruct (IH f l' s g e ltac:(cbn in Hn; lia) Hp Hm) as (s0 & -> & Sp & Di).
           exists (c' :: s0). split; [reflexivity|]. split; [apply sp_percent; assumption | exact Di].
        -- destruct (directive_of k) as [d|] eqn:Ed; [|destruct (other_directive k); [destruct (parse_format C false f); discriminate Hp | discriminate Hp]].
           apply pcons_toks in Hp as (l' & Hp & ->). cbn [match_toks] in Hm.
           apply first_some_in in Hm as (ks & Ik & Hm). destruct (take_cls C ks s) as [[a r]|] eqn:Ta; [|discriminate].
           destruct (match_toks C l' r) as [[g' e']|] eqn:M; [|discriminate]. injection Hm as <- <-.
           destruct (alternative_written d ks s a r Ik Ta) as [-> W].
           destruct (IH f l' r g' e' ltac:(cbn in Hn; lia) Hp M) as (s0 & -> & Sp & Di).
           exists (a ++ s0). split; [apply app_assoc|]. rewrite (directive_char k d Ed). cbn [values map fst snd dirs].
           split; [apply sp_number; assumption | f_equal; exact Di].
      * rewrite Sc in Hp. apply pcons_toks in Hp as (l' & Hp & ->). cbn [match_toks] in Hm. destruct s as [|c' s]; [discriminate|].
        destruct (c_same C c c') eqn:Sa; [|discriminate].
        destruct (IH f l' s g e ltac:(cbn in Hn; lia) Hp Hm) as (s0 & -> & Sp & Di).
        exists (c' :: s0). split; [reflexivity|]. split; [apply sp_char; assumption | exact Di].
Qed.
Lemma duplicate_dirs l : duplicate l = false <-> NoDup (dirs l).
Proof.
  induction l as [|t l IH]; cbn [duplicate dirs]; [split; [constructor | reflexivity]|].
  destruct t as [c| |d]; try exact IH. rewrite orb_false_iff, IH.
  assert (E : existsb (fun t => match t with TDir d' => dir_eqb d d' | _ => false end) l = false <-> ~ In d (dirs l)).
  { clear IH. induction l as [|t l IH]; cbn [existsb dirs]; [split; [intros _ [] | reflexivity]|].
    destruct t as [c| |d']; cbn [orb]; try exact IH. rewrite orb_false_iff, IH. cbn [In].
    split; [intros [H1 H2] [H3|H3]; [subst d'; rewrite (proj2 (dir_eqb_spec d d) eq_refl) in H1; discriminate H1 | exact (H2 H3)]|].
    intros H. split; [|tauto]. destruct (dir_eqb d d') eqn:Q; [|reflexivity]. apply dir_eqb_spec in Q. exfalso. apply H. left. congruence. }
  rewrite E. split; [intros [H1 H2]; constructor; assumption | intros H; inversion H; split; assumption].
Qed.
Lemma group_values d g : NoDup (map fst g) ->
  match group d g with
  | Some t => In (dir_char d, group_value d t) (values g)
  | None => forall v, ~ In (dir_char d, v) (values g)
  end.
Proof.
  induction g as [|[d' t] g IH]; intros N; cbn [group values map fst snd]; [intros v []|].
  cbn [map fst] in N. apply NoDup_cons_iff in N as [N1 N2]. specialize (IH N2).
  destruct (dir_eqb d d') eqn:Q.
  - apply dir_eqb_spec in Q. subst d'. left. reflexivity.
  - assert (Hd : dir_char d' <> dir_char d) by (intros H; apply dir_char_inj in H; subst d'; rewrite (proj2 (dir_eqb_spec d d) eq_refl) in Q; discriminate Q).
    destruct (group d g); [right; exact IH|]. intros v [H|H]; [congruence | exact (IH v H)].
Qed.
Lemma values_NoDup g : NoDup (map fst g) -> NoDup (map fst (values g)).
Proof.
  intros H. unfold values. rewrite map_map. cbn [fst]. rewrite <- (map_map fst dir_char).
  apply Injective_map_NoDup; [intros a b; apply dir_char_inj | exact H].
Qed.
Lemma fields_show g d : NoDup (map fst g) ->
  mk_datetime (field C g DY 1900) (field C g Dm 1) (field C g Dd 1) (field C g DH 0) (field C g DM 0) (field C g DS 0) (fraction C g) = Ok d ->
  shows (values g) d.
Proof.
  intros N H. unfold mk_datetime in H. destruct (negb _); [discriminate|]. destruct (datetime_valid _); [|discriminate]. injection H as <-.
  intros k df x I. cbn [dt_year dt_month dt_day dt_hour dt_minute dt_second dt_micro In] in I.
  repeat match goal with H : _ \/ _ |- _ => destruct H as [H|H] end; try contradiction; injection I as <- <- <-;
    unfold field, fraction;
    match goal with |- context [group ?D g] => pose proof (group_values D g N) as G; destruct (group D g) end;
    [left; exact G | right; split; [exact G | reflexivity] | left; exact G | right; split; [exact G | reflexivity] | left; exact G | right; split; [exact G | reflexivity]
    | left; exact G | right; split; [exact G | reflexivity] | left; exact G | right; split; [exact G | reflexivity] | left; exact G | right; split; [exact G | reflexivity]
    | left; exact G | right; split; [exact G | reflexivity]].
Qed.
End facts.
