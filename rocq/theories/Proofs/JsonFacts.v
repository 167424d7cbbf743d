(** * Printing and parsing JSON text *)
From Verif Require Import Model.Base Model.Dec Model.Time Model.Value Model.Encoder.
From Verif Require Import Spec.DecSpec Spec.TimeSpec Spec.EncSpec Proofs.BaseFacts Proofs.DecFacts Proofs.DecText Proofs.DecFloat.
Local Open Scope N_scope.

(** ** hexadecimal *)
Lemma hex_val_digit n : n < 16 -> hex_val (hex_digit n) = Some n.
Proof.
  intros H. unfold hex_digit, hex_val. destruct (N.ltb_spec n 10).
  - rewrite (proj2 (N.leb_le _ _)), (proj2 (N.leb_le _ _)) by lia. cbn [andb]. f_equal. lia.
  - destruct (N.leb_spec 48 (87 + n)), (N.leb_spec (87 + n) 57); try lia; cbn [andb];
      rewrite (proj2 (N.leb_le _ _)), (proj2 (N.leb_le _ _)) by lia; cbn [andb]; f_equal; lia.
Qed.
Lemma hex_digit_range n : n < 16 -> 32 < hex_digit n <= 126 /\ hex_digit n <> 34 /\ hex_digit n <> 92.
Proof. intros H. unfold hex_digit. destruct (N.ltb_spec n 10); lia. Qed.
Lemma mod16 n : n mod 16 < 16. Proof. apply N.mod_lt. lia. Qed.
Lemma hex_digits4_hex4 n r : n < 65536 -> hex_digits4 (hex4 n ++ r) = Some (n, r).
Proof.
  intros H. unfold hex4. cbn [app hex_digits4].
  rewrite !hex_val_digit by apply mod16.
  replace ((((n / 4096 mod 16) * 16 + n / 256 mod 16) * 16 + n / 16 mod 16) * 16 + n mod 16) with n; [reflexivity|].
  lia.
Qed.
Lemma hex_not_space c n : hex_val c = Some n -> hex_space c = false.
Proof.
  unfold hex_val, hex_space. intros H.
  destruct (N.leb_spec 48 c), (N.leb_spec c 57); cbn [andb] in H; try (apply orb_false_iff; split; [apply andb_false_iff|]; lia);
  destruct (N.leb_spec 97 c), (N.leb_spec c 102); cbn [andb] in H; try lia;
  destruct (N.leb_spec 65 c), (N.leb_spec c 70); cbn [andb] in H; try discriminate; lia.
Qed.
Lemma fromhex_hex b : Forall (fun x => x < 256) b -> fromhex (hex_of_bytes b) = Ok b.
Proof.
  intros H. unfold fromhex.
  assert (G : forall fuel, (List.length (hex_of_bytes b) < fuel)%nat -> fromhex_aux fuel (hex_of_bytes b) = Ok b); [|apply G; lia].
  induction H as [|x b Hx Hb IH]; intros fuel Hf; destruct fuel as [|f]; try lia; [reflexivity|].
  cbn [hex_of_bytes flat_map app fromhex_aux]. cbn [hex_of_bytes flat_map app List.length] in Hf.
  assert (H1 : x / 16 < 16) by (apply N.div_lt_upper_bound; lia). pose proof (mod16 x) as H2.
  rewrite (hex_not_space _ _ (hex_val_digit _ H1)), !hex_val_digit by assumption.
  fold (hex_of_bytes b). rewrite IH by (fold (hex_of_bytes b) in Hf; lia). cbn [bindr].
  f_equal. f_equal. lia.
Qed.

(** ** strings *)
Lemma esc_char_plain c : 32 <= c <= 126 -> c <> 34 -> c <> 92 -> esc_char c = [c].
Proof.
  intros H H1 H2. unfold esc_char. rewrite (proj2 (N.eqb_neq _ _) H1), (proj2 (N.eqb_neq _ _) H2).
  rewrite (proj2 (N.leb_le _ _)), (proj2 (N.leb_le _ _)) by lia. reflexivity.
Qed.
Lemma esc_char_len c : (1 <= List.length (esc_char c))%nat.
Proof.
  unfold esc_char. repeat match goal with |- context [if ?b then _ else _] => destruct b end; cbn; lia.
Qed.
Definition qtail (t : pystr) : Prop := match t with [] => False | c :: _ => c = 34 end.

(** what an escape starts with: a low surrogate escape only for a low surrogate *)
Definition low_start (t : pystr) : bool :=
  match t with
  | b :: v :: r => if (N.eqb b 92 && N.eqb v (ch "u"))%bool
                   then match hex_digits4 r with Some (y, _) => is_low y | None => false end else false
  | _ => false
  end.
Lemma esc_u_cons n : esc_u n = 92 :: ch "u" :: hex4 n. Proof. reflexivity. Qed.
Lemma low_start_esc c t : c <= 1114111 -> is_low c = false -> low_start (esc_char c ++ t) = false.
Proof.
  intros Hc Hl. unfold esc_char.
  destruct (N.eqb_spec c 34); [reflexivity|]. destruct (N.eqb_spec c 92); [reflexivity|].
  destruct (N.leb_spec 32 c), (N.leb_spec c 126); cbn [andb].
  1: { cbn [app low_start]. destruct t as [|v r]; [reflexivity|].
       rewrite (proj2 (N.eqb_neq c 92)) by assumption. reflexivity. }
  all: destruct (N.eqb_spec c 8); [reflexivity|]; destruct (N.eqb_spec c 12); [reflexivity|];
    destruct (N.eqb_spec c 10); [reflexivity|]; destruct (N.eqb_spec c 13); [reflexivity|]; destruct (N.eqb_spec c 9); [reflexivity|];
    destruct (N.ltb_spec c 65536).
  all: rewrite ?esc_u_cons; cbn [app low_start]; change (N.eqb 92 92 && N.eqb (ch "u") (ch "u"))%bool with true; cbn iota.
  all: rewrite ?app_assoc_reverse; rewrite hex_digits4_hex4 by lia; try assumption.
  all: unfold is_low; apply andb_false_iff; left; apply N.leb_gt;
    assert ((c - 65536) / 1024 < 1024) by (apply N.div_lt_upper_bound; lia); lia.
Qed.
Lemma low_start_quote t : low_start (34 :: t) = false.
Proof. unfold low_start. destruct t; reflexivity. Qed.

(** one step of the scanner over an escaped character *)
Lemma scan_esc c f t : c <= 1114111 -> (is_high c = true -> low_start t = false) ->
  scan_string (S f) (esc_char c ++ t) =
  match scan_string f t with Some (x, r) => Some (c :: x, r) | None => None end.
Proof.
  intros Hc Hh. unfold esc_char.
  destruct (N.eqb_spec c 34) as [->|N34]; [reflexivity|]. destruct (N.eqb_spec c 92) as [->|N92]; [reflexivity|].
  destruct (N.leb_spec 32 c), (N.leb_spec c 126); cbn [andb].
  1: { cbn [app scan_string]. rewrite (proj2 (N.eqb_neq c 34)) by assumption.
       rewrite (proj2 (N.ltb_ge c 32)) by assumption. rewrite (proj2 (N.eqb_neq c 92)) by assumption. reflexivity. }
  all: destruct (N.eqb_spec c 8) as [->|]; [reflexivity|]; destruct (N.eqb_spec c 12) as [->|]; [reflexivity|];
    destruct (N.eqb_spec c 10) as [->|]; [reflexivity|]; destruct (N.eqb_spec c 13) as [->|]; [reflexivity|]; destruct (N.eqb_spec c 9) as [->|]; [reflexivity|];
    destruct (N.ltb_spec c 65536) as [HB|HB].
  all: rewrite ?esc_u_cons, ?app_assoc_reverse; cbn [app scan_string];
    change (N.eqb 92 34) with false; change (N.ltb 92 32) with false; change (N.eqb 92 92) with true; change (N.eqb (ch "u") (ch "u")) with true; cbn [negb andb].
  all: rewrite hex_digits4_hex4 by (try assumption; assert ((c - 65536) / 1024 < 1024) by (apply N.div_lt_upper_bound; lia); lia).
  all: try (exfalso; lia).
  - destruct (is_high c) eqn:E; [|reflexivity]. specialize (Hh eq_refl).
    destruct t as [|b [|v r2']]; try reflexivity. cbn [low_start] in Hh.
    destruct (N.eqb b 92 && N.eqb v (ch "u"))%bool; [|reflexivity].
    destruct (hex_digits4 r2') as [[y r3]|]; [|reflexivity]. rewrite Hh. reflexivity.
  - assert (D : (c - 65536) / 1024 < 1024) by (apply N.div_lt_upper_bound; lia).
    assert (M : (c - 65536) mod 1024 < 1024) by (apply N.mod_lt; lia).
    assert (is_high (55296 + (c - 65536) / 1024) = true) as -> by (unfold is_high; apply andb_true_iff; split; apply N.leb_le; lia).
    change (N.eqb 92 92 && N.eqb (ch "u") (ch "u"))%bool with true. cbn iota.
    rewrite hex_digits4_hex4 by lia.
    assert (is_low (56320 + (c - 65536) mod 1024) = true) as -> by (unfold is_low; apply andb_true_iff; split; apply N.leb_le; lia).
    replace (65536 + (55296 + (c - 65536) / 1024 - 55296) * 1024 + (56320 + (c - 65536) mod 1024 - 56320)) with c; [reflexivity|].
    pose proof (N.div_mod (c - 65536) 1024 ltac:(lia)). lia.
  - destruct (is_high c) eqn:E; [|reflexivity]. specialize (Hh eq_refl).
    destruct t as [|b [|v r2']]; try reflexivity. cbn [low_start] in Hh.
    destruct (N.eqb b 92 && N.eqb v (ch "u"))%bool; [|reflexivity].
    destruct (hex_digits4 r2') as [[y r3]|]; [|reflexivity]. rewrite Hh. reflexivity.
Qed.
Lemma scan_string_mono f s t r : scan_string f s = Some (t, r) -> forall g, (f <= g)%nat -> scan_string g s = Some (t, r).
Proof.
  revert s t r; induction f as [|f IH]; intros s t r H g Hg; [discriminate|].
  destruct g as [|g]; [lia|]. cbn [scan_string] in *. destruct s as [|c s']; [discriminate|].
  destruct (N.eqb c 34); [exact H|]. destruct (N.ltb c 32); [discriminate|]. destruct (negb (N.eqb c 92)).
  - destruct (scan_string f s') as [[x r']|] eqn:E; [|discriminate]. rewrite (IH _ _ _ E g) by lia. exact H.
  - destruct s' as [|e r1]; [discriminate|]. destruct (N.eqb e (ch "u")).
    + destruct (hex_digits4 r1) as [[x r2]|]; [|discriminate].
      destruct (if is_high x then _ else _) as [x' r3].
      destruct (scan_string f r3) as [[y r']|] eqn:E; [|discriminate]. rewrite (IH _ _ _ E g) by lia. exact H.
    + destruct (if N.eqb e 34 then _ else _) as [x|]; [|discriminate].
      destruct (scan_string f r1) as [[y r']|] eqn:E; [|discriminate]. rewrite (IH _ _ _ E g) by lia. exact H.
Qed.
Lemma scan_print s rest fuel : text_ok s -> (List.length s < fuel)%nat ->
  scan_string fuel (flat_map esc_char s ++ 34 :: rest) = Some (s, rest).
Proof.
  revert fuel; induction s as [|c s IH]; intros fuel Hok Hf; destruct fuel as [|f]; try (cbn in Hf; lia); [reflexivity|].
  cbn [flat_map]. rewrite <- app_assoc. cbn [text_ok] in Hok. destruct Hok as (Hc & Hn & Hok). cbn [List.length] in Hf.
  assert (Hlow : is_high c = true -> low_start (flat_map esc_char s ++ 34 :: rest) = false).
  { intros Hh. destruct s as [|c2 s']; [apply low_start_quote|]. cbn [flat_map]. rewrite <- app_assoc.
    cbn [text_ok] in Hok. destruct Hok as (Hc2 & _). apply low_start_esc; [exact Hc2|].
    unfold is_low, is_high in *. apply andb_true_iff in Hh as [A B]. apply N.leb_le in A, B.
    apply andb_false_iff. destruct (N.leb_spec 56320 c2); [|left; reflexivity]. destruct (N.leb_spec c2 57343); [|right; reflexivity].
    exfalso. apply Hn. split; lia. }
  rewrite scan_esc by assumption. rewrite (IH f Hok) by lia. reflexivity.
Qed.

(** ** numbers *)
Definition delim (t : pystr) : Prop :=
  match t with [] => True | c :: _ => c = ch "," \/ c = ch "]" \/ c = ch "}" end.
Lemma delim_nodig t : delim t -> nodig t.
Proof. destruct t as [|c t]; [trivial|]. intros [->|[->| ->]]; reflexivity. Qed.
Definition lead_ok (ip : pystr) : Prop := ip = u "0" \/ hd 0 ip <> 48.
Definition exp_text (ex : pystr) : Prop :=
  ex = [] \/ exists sg k, ex = ch "e" :: sg :: k /\ (sg = ch "-" \/ sg = ch "+") /\ alld k /\ k <> [].

Lemma num_sign_sgn neg s : match s with c :: _ => is_digit c = true | [] => False end ->
  num_sign (sgn_str neg ++ s) = (sgn_str neg, s).
Proof.
  intros H. destruct neg; [reflexivity|]. cbn [sgn_str app]. destruct s as [|c s]; [contradiction|].
  unfold num_sign. destruct (N.eqb_spec c (ch "-")) as [->|]; [discriminate|reflexivity].
Qed.
Lemma num_int_ok ip t : alld ip -> ip <> [] -> lead_ok ip -> nodig t -> num_int (ip ++ t) = (ip, t).
Proof.
  intros H1 H2 H3 Ht. destruct H3 as [->|H3]; [reflexivity|].
  destruct ip as [|c ip]; [congruence|]. cbn [hd] in H3. unfold num_int. cbn [app].
  rewrite (proj2 (N.eqb_neq c 48)) by assumption. exact (span_digits_app (c :: ip) t H1 Ht).
Qed.
Lemma num_frac_ok fp t : alld fp -> nodig t -> match t with c :: _ => c <> ch "." | [] => True end ->
  num_frac (frac_text fp ++ t) = (frac_text fp, t).
Proof.
  intros H1 H2 H3. destruct fp as [|d fp].
  - cbn [frac_text app]. destruct t as [|c t]; [reflexivity|]. unfold num_frac.
    rewrite (proj2 (N.eqb_neq c (ch "."))) by assumption. reflexivity.
  - unfold frac_text, num_frac. cbn [u app]. change (N.eqb (N_of_ascii ".") (ch ".")) with true. cbn iota.
    change (d :: fp ++ t) with ((d :: fp) ++ t). rewrite span_digits_app by assumption. reflexivity.
Qed.
Lemma num_exp_ok ex t : exp_text ex -> delim t -> num_exp (ex ++ t) = (ex, t).
Proof.
  intros [->|(sg & k & -> & Hs & Hk & Hne)] Ht.
  - cbn [app]. destruct t as [|c t]; [reflexivity|]. destruct Ht as [->|[->| ->]]; reflexivity.
  - cbn [app]. unfold num_exp. change (N.eqb (lower_ascii (ch "e")) (ch "e")) with true. cbn iota.
    assert (num_exp_sign (sg :: k ++ t) = ([sg], k ++ t)) as -> by (destruct Hs as [-> | ->]; reflexivity).
    rewrite span_digits_app by (try assumption; apply delim_nodig; assumption).
    destruct k; [congruence|]. reflexivity.
Qed.
Lemma exp_head ex t : exp_text ex -> delim t -> nodig (ex ++ t) /\ match ex ++ t with c :: _ => c <> ch "." | [] => True end.
Proof.
  intros [->|(sg & k & -> & _)] Ht; cbn [app]; [|split; [reflexivity|discriminate]].
  split; [apply delim_nodig; exact Ht|]. destruct t as [|c t]; [trivial|]. destruct Ht as [->|[->| ->]]; discriminate.
Qed.
Lemma scan_number_gen neg ip fp ex t : alld ip -> ip <> [] -> lead_ok ip -> alld fp -> exp_text ex -> delim t ->
  scan_number (sgn_str neg ++ ip ++ frac_text fp ++ ex ++ t) =
  Some (sgn_str neg ++ ip ++ frac_text fp ++ ex, match frac_text fp, ex with [], [] => false | _, _ => true end, t).
Proof.
  intros Hi Hne Hl Hf He Ht. unfold scan_number. destruct (exp_head ex t He Ht) as [E1 E2].
  rewrite num_sign_sgn.
  2: { destruct ip as [|c ip]; [congruence|]. apply (alld_In (c :: ip)); [exact Hi|left; reflexivity]. }
  rewrite num_int_ok; try assumption.
  2: { destruct fp; [exact E1|reflexivity]. }
  destruct ip as [|c ip]; [congruence|].
  rewrite num_frac_ok by assumption. rewrite num_exp_ok by assumption. reflexivity.
Qed.
Lemma str_of_N_lead n : lead_ok (str_of_N n).
Proof.
  destruct (str_of_N n) as [|c r] eqn:E; [exfalso; exact (str_of_N_nonnil n E)|].
  unfold lead_ok; cbn [hd]. destruct (N.eq_dec c 48) as [->|]; [|right; assumption]. left.
  destruct r as [|d r]; [reflexivity|]. exfalso.
  pose proof (alld_str n) as A. rewrite E in A.
  assert (A' : alld (d :: r)) by (unfold alld in *; cbn [forallb] in *; apply andb_true_iff in A as [_ A]; exact A).
  pose proof (dval_str_of_N n) as D. rewrite E in D. change (dval 0 (48 :: d :: r)) with (dval 0 (d :: r)) in D.
  pose proof (dval_bound _ A') as B. rewrite D in B.
  assert (L : (ndigits n <= List.length (d :: r))%nat).
  { apply ndigits_le; [cbn; lia|]. apply N2Z.inj_lt. rewrite N2Z.inj_pow, nat_N_Z. exact B. }
  unfold ndigits in L. rewrite E in L. cbn in L. lia.
Qed.
Lemma str_of_Z_sgn z : str_of_Z z = sgn_str (Z.ltb z 0) ++ str_of_N (Z.abs_N z).
Proof. destruct z; reflexivity. Qed.
Lemma scan_number_int z t : delim t -> scan_number (str_of_Z z ++ t) = Some (str_of_Z z, false, t).
Proof.
  intros Ht. rewrite str_of_Z_sgn.
  pose proof (scan_number_gen (Z.ltb z 0) (str_of_N (Z.abs_N z)) [] [] t (alld_str _) (str_of_N_nonnil _) (str_of_N_lead _) eq_refl (or_introl eq_refl) Ht) as S.
  cbn [frac_text app] in S. rewrite app_nil_r in S. rewrite <- app_assoc. exact S.
Qed.
Lemma int_of_str_of_Z z s : py_int_str z = Ok s -> s = str_of_Z z /\ int_of_str s = Ok z.
Proof.
  unfold py_int_str. destruct (Z.leb_spec (Z.of_nat (ndigits (Z.abs_N z))) 4300) as [L|]; [|discriminate].
  intros H; injection H as <-. split; [reflexivity|]. unfold int_of_str.
  assert (Hc : forall c, In c (str_of_Z z) -> numchar c) by (intros; eapply str_of_Z_numchar; eassumption).
  rewrite strip_c_id by (intros c H; apply cspace_space, numchar_space, Hc, H).
  pose proof (numchar_no_underscore _ Hc) as Hu. rewrite underscores_clean, remove_char_id by exact Hu. cbn [negb].
  rewrite str_of_Z_sgn. rewrite take_sign_sgn.
  2: { destruct (str_of_N_cons (Z.abs_N z)) as (c & s & -> & Hd). exact Hd. }
  rewrite N_of_digits_str_of_N. fold (ndigits (Z.abs_N z)). rewrite (proj2 (Z.leb_le _ _)) by exact L.
  f_equal. destruct (Z.ltb_spec z 0); lia.
Qed.
Lemma ndigits_abs_le z k : (0 < k)%Z -> ((Z.of_nat (ndigits (Z.abs_N z)) <= k)%Z <-> (Z.abs z < 10 ^ k)%Z).
Proof.
  intros Hk. rewrite <- (Z2Nat.id k) by lia. rewrite <- Nat2Z.inj_le.
  rewrite ndigits_le by lia. rewrite N2Z.inj_lt, N2Z.inj_abs_N, N2Z.inj_pow, nat_N_Z. reflexivity.
Qed.
Lemma int_ok_str z : int_ok z <-> py_int_str z = Ok (str_of_Z z).
Proof.
  unfold int_ok, py_int_str. rewrite <- (ndigits_abs_le z 4300 eq_refl).
  destruct (Z.leb_spec (Z.of_nat (ndigits (Z.abs_N z))) 4300) as [H|H]; split; intros H2; try reflexivity; try discriminate; try assumption.
  exfalso. exact (Zlt_not_le _ _ H H2).
Qed.
Lemma int_ok_str_err z : ~ int_ok z -> py_int_str z = Err EValue.
Proof.
  intros H. rewrite int_ok_str in H. unfold py_int_str in *. destruct (Z.leb _ _); [congruence|reflexivity].
Qed.
