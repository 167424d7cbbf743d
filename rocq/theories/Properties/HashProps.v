(** * C81-C83: hashing and cryptography *)
From Verif Require Import Model.Base Model.Dec Model.Value Model.Encoder Model.Hashing Spec.HashSpec Proofs.BaseFacts Proofs.JsonFacts Proofs.EncFacts.
Local Open Scope N_scope.
Ltac Zify.zify_post_hook ::= Z.to_euclidean_division_equations.

(** ** Digits *)
Lemma hex_val_spec c x : hex_val c = Some x <-> hexdigit c x.
Proof.
  unfold hexdigit. split.
  - unfold hex_val. intros H.
    assert (x < 16 /\ (c = (if N.ltb x 10 then 48 + x else 87 + x) \/ c = (if N.ltb x 10 then 48 + x else 55 + x))) as [B E].
    { destruct (N.leb_spec 48 c), (N.leb_spec c 57); cbn in H; [injection H as <-; destruct (N.ltb_spec (c - 48) 10); lia|..];
      destruct (N.leb_spec 97 c), (N.leb_spec c 102); cbn in H; try (injection H as <-; destruct (N.ltb_spec (c - 87) 10); lia);
      destruct (N.leb_spec 65 c), (N.leb_spec c 70); cbn in H; try discriminate; injection H as <-; destruct (N.ltb_spec (c - 55) 10); lia. }
    assert (D : In x [0;1;2;3;4;5;6;7;8;9;10;11;12;13;14;15]) by (cbn [In]; lia).
    repeat (destruct D as [<-|D]; [destruct E as [->| ->]; [left|right]; reflexivity|]). destruct D.
  - intros H.
    assert (x < 16) by (destruct H as [H|H]; apply nth_error_Some_lt in H || (assert (N.to_nat x < List.length hex_lower)%nat by (apply nth_error_Some; rewrite H; discriminate)) || (assert (N.to_nat x < List.length hex_upper)%nat by (apply nth_error_Some; rewrite H; discriminate)); cbn in *; lia).
    assert (D : In x [0;1;2;3;4;5;6;7;8;9;10;11;12;13;14;15]) by (cbn [In]; lia).
    repeat (destruct D as [<-|D]; [destruct H as [H|H]; injection H as <-; reflexivity|]). destruct D.
Qed.
Lemma blank_spec c : hex_space c = true <-> blank c.
Proof.
  unfold hex_space, blank. cbn [In]. rewrite Bool.orb_true_iff, Bool.andb_true_iff, !N.leb_le, N.eqb_eq. lia.
Qed.
Lemma cspace_blank c : is_cspace c = true <-> blank c.
Proof. exact (blank_spec c). Qed.
Lemma blank_not_digit c x : blank c -> ~ hexdigit c x.
Proof.
  intros B D. apply hex_val_spec in D. unfold blank in B. cbn [In] in B.
  decompose [or] B; try subst c; try discriminate D. contradiction.
Qed.
Lemma hexdigit_fun c x y : hexdigit c x -> hexdigit c y -> x = y.
Proof. rewrite <- !hex_val_spec. congruence. Qed.
Lemma hexdigit_lt c x : hexdigit c x -> x < 16 /\ c < 128.
Proof.
  rewrite <- hex_val_spec. unfold hex_val. intros H.
  destruct (N.leb_spec 48 c), (N.leb_spec c 57); cbn in H; [injection H as <-; lia|..];
  destruct (N.leb_spec 97 c), (N.leb_spec c 102); cbn in H; try (injection H as <-; lia);
  destruct (N.leb_spec 65 c), (N.leb_spec c 70); cbn in H; try discriminate; injection H as <-; lia.
Qed.

(** ** fromhex is the reading of hexadecimal text *)
Lemma fromhex_aux_spec n s b : (List.length s < n)%nat -> (fromhex_aux n s = Ok b <-> hex_text s b).
Proof.
  revert s b; induction n as [|n IH]; intros s b L; [lia|]. cbn [fromhex_aux].
  destruct s as [|a s]; [split; [intros [= <-]; constructor | intros H; inversion H; reflexivity]|]. cbn [List.length] in L.
  destruct (hex_space a) eqn:SP.
  - rewrite IH by lia. apply blank_spec in SP. split; [intros H; constructor; assumption|].
    intros H; inversion H; subst; [assumption|]. exfalso. eapply blank_not_digit; eassumption.
  - assert (NB : ~ blank a) by (rewrite <- blank_spec, SP; discriminate).
    destruct s as [|c s].
    { split; [discriminate|]. intros H; inversion H; subst; contradiction. }
    cbn [List.length] in L. split.
    + destruct (hex_val a) eqn:A; [|discriminate]. destruct (hex_val c) eqn:C; [|discriminate].
      destruct (fromhex_aux n s) eqn:F; [|discriminate]. cbn [bindr]. intros [= <-].
      apply hex_val_spec in A, C. apply IH in F; [|lia]. constructor; assumption.
    + intros H; inversion H; subst; [contradiction|].
      match goal with HA : hexdigit a _, HC : hexdigit c _ |- _ => apply hex_val_spec in HA as ->; apply hex_val_spec in HC as -> end.
      rewrite (proj2 (IH s b0 ltac:(lia))) by assumption. reflexivity.
Qed.
Lemma fromhex_spec s b : fromhex s = Ok b <-> hex_text s b.
Proof. apply fromhex_aux_spec. lia. Qed.
Lemma fromhex_aux_err n s e : fromhex_aux n s = Err e -> e = EValue.
Proof.
  revert s; induction n as [|n IH]; intros s; cbn [fromhex_aux]; [congruence|].
  destruct s as [|a s]; [discriminate|]. destruct (hex_space a); [apply IH|]. destruct s as [|c s]; [congruence|].
  destruct (hex_val a), (hex_val c); try congruence. destruct (fromhex_aux n s) eqn:F; cbn [bindr]; [discriminate|]. intros [= <-]. eapply IH, F.
Qed.
Lemma fromhex_err s e : fromhex s = Err e -> e = EValue.
Proof. apply fromhex_aux_err. Qed.
Lemma hex_text_fun s b b' : hex_text s b -> hex_text s b' -> b = b'.
Proof. rewrite <- !fromhex_spec. congruence. Qed.
Lemma hex_text_ascii s b c : hex_text s b -> In c s -> c < 128.
Proof.
  induction 1 as [|a s b B _ IH|a d x y s b A D _ IH]; cbn [In].
  - intros [].
  - intros [<-|HI]; [unfold blank in B; cbn [In] in B; lia|auto].
  - intros [<-|[<-|HI]]; [apply hexdigit_lt in A|apply hexdigit_lt in D|]; [lia|lia|auto].
Qed.

(** ** UTF-8 *)
Lemma is_surrogate_spec c : is_surrogate c = true <-> surrogate c.
Proof. unfold is_surrogate, surrogate. rewrite Bool.andb_true_iff, !N.leb_le. reflexivity. Qed.
Lemma utf8_char_spec c b : c < 1114112 -> (utf8_char c = b <-> utf8_bytes c b).
Proof.
  intros B. unfold utf8_char. split.
  - intros <-. destruct (N.ltb_spec c 128); [constructor; assumption|]. destruct (N.ltb_spec c 2048).
    { replace c with (64 * (c / 64) + c mod 64) at 1 by lia. constructor; lia. }
    destruct (N.ltb_spec c 65536).
    { replace c with (4096 * (c / 4096) + 64 * ((c / 64) mod 64) + c mod 64) at 1 by lia. constructor; lia. }
    replace c with (262144 * (c / 262144) + 4096 * ((c / 4096) mod 64) + 64 * ((c / 64) mod 64) + c mod 64) at 1 by lia. constructor; lia.
  - intros H. inversion H; subst.
    + rewrite (proj2 (N.ltb_lt _ _)) by assumption. reflexivity.
    + rewrite (proj2 (N.ltb_ge _ _)) by lia. rewrite (proj2 (N.ltb_lt _ _)) by lia. repeat f_equal; lia.
    + rewrite !(proj2 (N.ltb_ge _ _)) by lia. rewrite (proj2 (N.ltb_lt _ _)) by lia. repeat f_equal; lia.
    + rewrite !(proj2 (N.ltb_ge _ _)) by lia. repeat f_equal; lia.
Qed.
Lemma utf8_spec s b : python_str s -> (utf8 s = Ok b <-> utf8_text s b).
Proof.
  unfold utf8. intros P. revert b. induction P as [|c s C P IH]; intros b; cbn [existsb flat_map].
  { split; [intros [= <-]; constructor|intros H; inversion H; reflexivity]. }
  destruct (is_surrogate c) eqn:S; cbn [orb].
  { apply is_surrogate_spec in S. split; [discriminate|]. intros H; inversion H; contradiction. }
  assert (NS : ~ surrogate c) by (rewrite <- is_surrogate_spec, S; discriminate). split.
  - destruct (existsb is_surrogate s) eqn:E; [discriminate|]. intros [= <-]. constructor; [exact NS|apply utf8_char_spec; [exact C|reflexivity]|apply IH; reflexivity].
  - intros H; inversion H as [|? ? cb bs' NS' U T]; subst. apply IH in T. destruct (existsb is_surrogate s); [discriminate|]. injection T as <-.
    apply utf8_char_spec in U; [|exact C]. rewrite U. reflexivity.
Qed.
Lemma utf8_err s e : utf8 s = Err e <-> e = EUnicode /\ Exists surrogate s.
Proof.
  unfold utf8. rewrite Exists_exists. destruct (existsb is_surrogate s) eqn:E.
  - apply existsb_exists in E as (c & I & S). apply is_surrogate_spec in S. split; [intros [= <-]; eauto|intros [-> _]; reflexivity].
  - split; [discriminate|]. intros (_ & c & I & S). apply is_surrogate_spec in S.
    assert (existsb is_surrogate s = true) by (apply existsb_exists; eauto). congruence.
Qed.
(** the first byte says how many follow *)
Lemma utf8_bytes_prefix c d b b' r r' : utf8_bytes c b -> utf8_bytes d b' -> b ++ r = b' ++ r' -> c = d /\ r = r'.
Proof.
  intros H H'; inversion H; inversion H'; subst; cbn [app]; intros E; injection E; intros; subst; try (split; [lia|reflexivity]); try lia; split; try reflexivity; try lia.
Qed.
Lemma utf8_bytes_cons c b : utf8_bytes c b -> b <> [].
Proof. intros H; inversion H; discriminate. Qed.
Lemma utf8_text_inv t b : utf8_text t b -> (t = [] /\ b = []) \/ exists c s b1 b2, t = c :: s /\ b = b1 ++ b2 /\ utf8_bytes c b1 /\ utf8_text s b2.
Proof. intros H; inversion H; subst; [left; auto|right; repeat eexists; eassumption]. Qed.
Lemma utf8_injective s t b : utf8_text s b -> utf8_text t b -> s = t.
Proof.
  intros H. revert t. induction H as [|c s b bs NS U H IH]; intros t H'; apply utf8_text_inv in H' as [[-> EB]|(d & t' & b1 & b2 & -> & EB & U' & T')].
  - reflexivity.
  - exfalso. destruct b1; [|discriminate]. eapply utf8_bytes_cons; [exact U'|reflexivity].
  - exfalso. destruct b; [|discriminate]. eapply utf8_bytes_cons; [exact U|reflexivity].
  - destruct (utf8_bytes_prefix _ _ _ _ _ _ U U' EB) as [-> ->]. f_equal. apply IH, T'.
Qed.

(** ** C81 *)
Lemma hash_input_spec s b : python_str s -> (hash_input s = Ok b <-> stands_for s b).
Proof.
  intros P. unfold hash_input, stands_for. destruct (fromhex s) as [x|e] eqn:F.
  - apply fromhex_spec in F. split; [intros [= <-]; left; exact F|]. intros [H|[H _]]; [f_equal; eapply hex_text_fun; eassumption|exfalso; eapply H, F].
  - pose proof (fromhex_err _ _ F) as ->. rewrite utf8_spec by exact P.
    assert (N : forall b', ~ hex_text s b') by (intros b' H; apply fromhex_spec in H; congruence). split; [auto|].
    intros [H|[_ H]]; [exfalso; eapply N, H|exact H].
Qed.
Lemma hash_input_err s e : hash_input s = Err e <-> e = EUnicode /\ Exists surrogate s.
Proof.
  unfold hash_input. destruct (fromhex s) as [x|e'] eqn:F.
  - split; [discriminate|]. intros [_ E]. apply Exists_exists in E as (c & I & S). apply fromhex_spec in F.
    pose proof (hex_text_ascii _ _ _ F I). unfold surrogate in S. lia.
  - pose proof (fromhex_err _ _ F) as ->. apply utf8_err.
Qed.
Lemma lower_digit x : x < 16 -> nth_error hex_lower (N.to_nat x) = Some (hex_digit x).
Proof.
  intros H. assert (D : In x [0;1;2;3;4;5;6;7;8;9;10;11;12;13;14;15]) by (cbn [In]; lia).
  repeat (destruct D as [<-|D]; [reflexivity|]). destruct D.
Qed.
Lemma lower_hex_spec b s : Forall (fun x => x < 256) b -> (hex_of_bytes b = s <-> lower_hex b s).
Proof.
  intros B. revert s. induction B as [|x b X B IH]; intros s.
  { split; [intros <-; constructor|intros H; inversion H; reflexivity]. }
  cbn [hex_of_bytes flat_map app]. fold (hex_of_bytes b). split.
  - intros <-. replace x with (16 * (x / 16) + x mod 16) at 1 by lia. constructor; [apply lower_digit; lia|apply lower_digit; lia|apply IH; reflexivity].
  - intros H; inversion H as [|c d x1 y1 b' s' C D T E1 E2]; subst.
    assert (x1 < 16 /\ y1 < 16) as [X1 Y1].
    { split; [assert (Q : hexdigit c x1) by (left; exact C)|assert (Q : hexdigit d y1) by (left; exact D)]; apply hexdigit_lt in Q; lia. }
    rewrite lower_digit in C, D by assumption. injection C as <-. injection D as <-.
    apply IH in T as ->. repeat f_equal; lia.
Qed.
(** a hash function of bytes *)
Definition byte_hash (H : list N -> list N) : Prop := forall b, Forall (fun x => x < 256) (H b).

(** C81: the text returned is the lower case hexadecimal form of the hash of the bytes the argument stands for; the only
    arguments that raise are those with a surrogate *)
Theorem C81_hash H s t : byte_hash H -> python_str s -> (hash_of H s = Ok t <-> exists b, stands_for s b /\ lower_hex (H b) t).
Proof.
  intros BH P. unfold hash_of. split.
  - destruct (hash_input s) as [b|e] eqn:I; cbn [bindr]; [|discriminate]. intros [= <-]. exists b.
    split; [apply hash_input_spec; assumption|apply lower_hex_spec; [apply BH|reflexivity]].
  - intros (b & S & L). apply hash_input_spec in S as ->; [|exact P]. cbn [bindr]. apply lower_hex_spec in L as ->; [reflexivity|apply BH].
Qed.
Theorem C81_raises H s e : hash_of H s = Err e <-> e = EUnicode /\ Exists surrogate s.
Proof.
  unfold hash_of. rewrite <- hash_input_err. destruct (hash_input s); cbn [bindr]; split; congruence || discriminate.
Qed.
(** hashing a hash hashes its bytes *)
Theorem C81_rehash H s t : byte_hash H -> python_str s -> hash_of H s = Ok t -> exists b, stands_for s b /\ hash_of H t = Ok (hex_of_bytes (H (H b))).
Proof.
  intros BH P. unfold hash_of. destruct (hash_input s) as [b|e] eqn:I; cbn [bindr]; [|discriminate]. intros [= <-].
  exists b. split; [apply hash_input_spec; assumption|]. unfold hash_input. rewrite fromhex_hex by apply BH. reflexivity.
Qed.
(** Two texts that are not hexadecimal have the same hash only if the hash function has a collision *)
Lemma hex_of_bytes_inj a b : Forall (fun x => x < 256) a -> Forall (fun x => x < 256) b -> hex_of_bytes a = hex_of_bytes b -> a = b.
Proof. intros A B E. apply fromhex_hex in A, B. rewrite E in A. congruence. Qed.
Theorem C81_texts_partial H s t r : byte_hash H -> python_str s -> python_str t -> s <> t ->
  (forall b, ~ hex_text s b) -> (forall b, ~ hex_text t b) -> hash_of H s = Ok r -> hash_of H t = Ok r -> exists a b, a <> b /\ H a = H b.
Proof.
  intros BH PS PT NE NS NT. unfold hash_of.
  destruct (hash_input s) as [a|] eqn:IS; [|discriminate]. destruct (hash_input t) as [b|] eqn:IT; [|discriminate]. cbn [bindr].
  intros [= <-] [= E]. exists a, b. split.
  - intros ->. apply hash_input_spec in IS as [IS|[_ IS]]; [exfalso; eapply NS, IS| |exact PS].
    apply hash_input_spec in IT as [IT|[_ IT]]; [exfalso; eapply NT, IT| |exact PT]. apply NE. eapply utf8_injective; eassumption.
  - symmetry. apply hex_of_bytes_inj; [apply BH|apply BH|exact E].
Qed.
(** REFUTED for all texts: a text that is not hexadecimal and the hexadecimal form of its UTF-8 bytes have the same hash, whatever the hash function;
    so have upper and lower case digits, and blanks are ignored *)
Theorem C81_refuted H s b : (forall b', ~ hex_text s b') -> python_str s -> utf8_text s b -> hash_of H (hex_of_bytes b) = hash_of H s /\ hex_of_bytes b <> s.
Proof.
  intros NS P U.
  assert (B : Forall (fun x => x < 256) b).
  { clear NS P. induction U as [|c s b bs NS U _ IH]; [constructor|]. apply Forall_app. split; [|exact IH]. inversion U; subst; repeat constructor; lia. }
  assert (I : hash_input s = Ok b) by (apply hash_input_spec; [exact P|right; auto]).
  unfold hash_of. rewrite I. unfold hash_input. rewrite fromhex_hex by exact B. split; [reflexivity|].
  intros E. apply (NS b). apply fromhex_spec. rewrite <- E. apply fromhex_hex, B.
Qed.
Theorem C81_case_refuted H : hash_of H (u "ab") = hash_of H (u "AB") /\ hash_of H (u "ab cd") = hash_of H (u "abcd") /\ hash_of H (u "ab") <> Err EUnicode.
Proof. repeat split. discriminate. Qed.
Example C81_some : (forall b, ~ hex_text (u "hello") b) /\ hash_of (fun b => b) (u "hello") = Ok (u "68656c6c6f") /\ hash_of (fun b => b) (u "68656c6c6f") = Ok (u "68656c6c6f")
  /\ hash_of (fun b => b) [233] = Ok (u "c3a9") /\ hash_of (fun b => b) [55296] = Err EUnicode.
Proof. split; [intros b Hb; apply fromhex_spec in Hb; discriminate|]. repeat split. Qed.

(** ** C82: key_is_valid *)
Lemma is_hex_spec c : is_hex c = true <-> exists x, hexdigit c x.
Proof. unfold is_hex. destruct (hex_val c) as [x|] eqn:E; [split; [exists x; apply hex_val_spec, E|reflexivity]|]. split; [discriminate|]. intros (x & D). apply hex_val_spec in D. congruence. Qed.
Lemma underscore_not_hex x : ~ hexdigit (ch "_") x.
Proof. intros D. apply hex_val_spec in D. discriminate. Qed.
Lemma grouped_spec s : (hex_digits_ok false s = true <-> grouped_hex s) /\ (hex_digits_ok true s = true <-> s = [] \/ grouped_hex s \/ exists r, s = ch "_" :: r /\ grouped_hex r).
Proof.
  induction s as [|c s [IF IT]].
  { split; [split; [discriminate|intros H; inversion H]|split; [auto|reflexivity]]. }
  cbn [hex_digits_ok]. destruct (N.eqb_spec c (ch "_")) as [->|NE].
  - cbn [andb]. split.
    + split; [discriminate|]. intros H; inversion H; exfalso; eapply underscore_not_hex; eassumption.
    + rewrite IF. split; [eauto|]. intros [H|[H|(r & [= <-] & H)]]; [discriminate| |exact H]. inversion H; exfalso; eapply underscore_not_hex; eassumption.
  - rewrite Bool.andb_true_iff, IT, is_hex_spec.
    assert (Q : (exists x, hexdigit c x) /\ (s = [] \/ grouped_hex s \/ exists r, s = ch "_" :: r /\ grouped_hex r) <-> grouped_hex (c :: s)).
    { split.
      - intros ((x & D) & [->|[G|(r & -> & G)]]); [eapply GDigit|eapply GMore|eapply GGroup]; eassumption.
      - intros H; inversion H; subst; (split; [eexists; eassumption|]); [left; reflexivity|right; left; assumption|right; right; eexists; split; [reflexivity|assumption]]. }
    rewrite Q. split; [reflexivity|]. split; [auto|]. intros [H|[H|(r & [= E _] & _)]]; [discriminate|exact H|contradiction].
Qed.
Lemma grouped_ends s : grouped_hex s -> (exists c r x, s = c :: r /\ hexdigit c x) /\ (exists r c x, s = r ++ [c] /\ hexdigit c x).
Proof.
  induction 1 as [c x D|c x s D G [_ (r & e & y & -> & E)]|c x s D G [_ (r & e & y & -> & E)]]; split; try (repeat eexists; eassumption).
  - exists [], c, x. auto.
  - exists (c :: r), e, y. auto.
  - exists (c :: ch "_" :: r), e, y. auto.
Qed.
Lemma lstrip_c_spec s : exists b, s = b ++ lstrip_c s /\ Forall blank b /\ match lstrip_c s with [] => True | c :: _ => ~ blank c end.
Proof.
  induction s as [|c s (b & E & B & H)]; [exists []; repeat constructor|]. cbn [lstrip_c]. destruct (is_cspace c) eqn:C.
  - apply cspace_blank in C. exists (c :: b). cbn [app]. rewrite <- E. auto.
  - exists []. repeat split; [constructor|]. intros Q. apply cspace_blank in Q. congruence.
Qed.
Lemma strip_c_spec s : exists b1 b2, s = b1 ++ strip_c s ++ b2 /\ Forall blank b1 /\ Forall blank b2.
Proof.
  unfold strip_c. destruct (lstrip_c_spec s) as (b1 & E1 & B1 & _). destruct (lstrip_c_spec (rev (lstrip_c s))) as (b2 & E2 & B2 & _).
  exists b1, (rev b2). split; [|split; [exact B1|apply Forall_rev, B2]]. rewrite <- rev_app_distr, <- E2, rev_involutive. exact E1.
Qed.
Lemma lstrip_c_blank b s : Forall blank b -> lstrip_c (b ++ s) = lstrip_c s.
Proof. induction 1 as [|c b C _ IH]; [reflexivity|]. apply cspace_blank in C. cbn [app lstrip_c]. rewrite C. exact IH. Qed.
Lemma lstrip_c_keep c s : ~ blank c -> lstrip_c (c :: s) = c :: s.
Proof. intros H. cbn [lstrip_c]. destruct (is_cspace c) eqn:E; [apply cspace_blank in E; contradiction|reflexivity]. Qed.
Lemma strip_c_core b1 m b2 : Forall blank b1 -> Forall blank b2 -> (exists c r, m = c :: r /\ ~ blank c) -> (exists r c, m = r ++ [c] /\ ~ blank c) -> strip_c (b1 ++ m ++ b2) = m.
Proof.
  intros B1 B2 (c & r & -> & C) (r' & d & E & D). unfold strip_c. rewrite lstrip_c_blank by exact B1. rewrite E, <- app_assoc. cbn [app].
  assert (K : lstrip_c (r' ++ d :: b2) = r' ++ d :: b2).
  { destruct r' as [|a r'']; cbn [app] in *; injection E as -> _; apply lstrip_c_keep, C. }
  rewrite K, rev_app_distr. cbn [rev]. rewrite <- app_assoc. cbn [app]. rewrite lstrip_c_blank by (apply Forall_rev, B2).
  rewrite lstrip_c_keep by exact D. cbn [rev]. rewrite rev_involutive. reflexivity.
Qed.
Lemma digit_not c d x : hexdigit c x -> hex_val d = None -> c <> d.
Proof. intros D H ->. apply hex_val_spec in D. congruence. Qed.
Lemma digit_not_blank c x : hexdigit c x -> ~ blank c.
Proof. intros D B. eapply blank_not_digit; eassumption. Qed.
Lemma take_sign_core sign r : optional [u "+"; u "-"] sign -> (exists c q x, r = c :: q /\ hexdigit c x) -> snd (take_sign (sign ++ r)) = r.
Proof.
  intros S (c & q & x & -> & D). destruct S as [->|[<-|[<-|[]]]]; cbn [app]; [|reflexivity..].
  cbn [take_sign]. destruct (N.eqb_spec c (ch "-")); [exfalso; eapply (digit_not c (ch "-")); [exact D|reflexivity|assumption]|].
  destruct (N.eqb_spec c (ch "+")); [exfalso; eapply (digit_not c (ch "+")); [exact D|reflexivity|assumption]|]. reflexivity.
Qed.
Lemma take_sign_inv s : exists sign, optional [u "+"; u "-"] sign /\ s = sign ++ snd (take_sign s).
Proof.
  destruct s as [|c s]; [exists []; split; [left|]; reflexivity|]. cbn [take_sign].
  destruct (N.eqb_spec c (ch "-")) as [->|]; [exists (u "-"); split; [right; right; left|]; reflexivity|].
  destruct (N.eqb_spec c (ch "+")) as [->|]; [exists (u "+"); split; [right; left|]; reflexivity|]. exists []. split; [left|]; reflexivity.
Qed.
Lemma skip_0x_core prefix d : optional [u "0x"; u "0X"; u "0x_"; u "0X_"] prefix -> grouped_hex d -> skip_0x (prefix ++ d) = d.
Proof.
  intros P G. destruct (proj1 (grouped_ends d G)) as (c & q & x & E & D).
  assert (NU : N.eqb c (ch "_") = false) by (apply N.eqb_neq; eapply digit_not; [exact D|reflexivity]).
  destruct P as [->|[<-|[<-|[<-|[<-|[]]]]]]; cbn [app].
  - subst d. cbn [skip_0x]. destruct q as [|e q]; [reflexivity|].
    assert (X : (N.eqb e (ch "x") || N.eqb e (ch "X"))%bool = false).
    { inversion G as [|? ? ? _ G'|? ? ? _ G']; subst; [|reflexivity]. destruct (proj1 (grouped_ends _ G')) as (c' & q' & x' & [= <- <-] & D').
      apply Bool.orb_false_iff. split; apply N.eqb_neq; (eapply digit_not; [exact D'|reflexivity]). }
    rewrite X, Bool.andb_false_r. reflexivity.
  - subst d. change (skip_0x (u "0x" ++ c :: q)) with (if N.eqb c (ch "_") then q else c :: q). rewrite NU. reflexivity.
  - subst d. change (skip_0x (u "0X" ++ c :: q)) with (if N.eqb c (ch "_") then q else c :: q). rewrite NU. reflexivity.
  - reflexivity.
  - reflexivity.
Qed.
Lemma skip_0x_inv s : exists prefix, optional [u "0x"; u "0X"; u "0x_"; u "0X_"] prefix /\ s = prefix ++ skip_0x s.
Proof.
  destruct s as [|z [|x r]]; [exists []; split; [left|]; reflexivity..|]. cbn [skip_0x].
  destruct (N.eqb_spec z (ch "0")) as [->|]; cbn [andb]; [|exists []; split; [left|]; reflexivity].
  destruct (N.eqb_spec x (ch "x")) as [->|]; cbn [orb].
  - destruct r as [|c r]; [exists (u "0x"); split; [right; left|]; reflexivity|]. destruct (N.eqb_spec c (ch "_")) as [->|].
    + exists (u "0x_"). split; [right; right; right; left|]; reflexivity.
    + exists (u "0x"). split; [right; left|]; reflexivity.
  - destruct (N.eqb_spec x (ch "X")) as [->|]; [|exists []; split; [left|]; reflexivity].
    destruct r as [|c r]; [exists (u "0X"); split; [right; right; left|]; reflexivity|]. destruct (N.eqb_spec c (ch "_")) as [->|].
    + exists (u "0X_"). split; [right; right; right; right; left|]; reflexivity.
    + exists (u "0X"). split; [right; right; left|]; reflexivity.
Qed.
Lemma core_ends sign prefix d : optional [u "+"; u "-"] sign -> optional [u "0x"; u "0X"; u "0x_"; u "0X_"] prefix -> grouped_hex d ->
  (exists c r, sign ++ prefix ++ d = c :: r /\ ~ blank c) /\ (exists r c, sign ++ prefix ++ d = r ++ [c] /\ ~ blank c) /\ (exists c r x, prefix ++ d = c :: r /\ hexdigit c x).
Proof.
  intros S P G. destruct (grouped_ends d G) as [(c & q & x & E & D) (r & e & y & E' & D')].
  assert (PD : exists c r x, prefix ++ d = c :: r /\ hexdigit c x).
  { destruct P as [->|[<-|[<-|[<-|[<-|[]]]]]]; [exists c, q, x; auto|..]; exists (ch "0"); eexists; exists 0; (split; [reflexivity|left; reflexivity]). }
  split; [|split; [|exact PD]].
  - destruct PD as (c' & r' & x' & -> & D2). destruct S as [->|[<-|[<-|[]]]]; cbn [app].
    + exists c', r'. split; [reflexivity|eapply digit_not_blank, D2].
    + exists (ch "+"), (c' :: r'). split; [reflexivity|]. intros B. unfold blank in B. cbn in B. repeat destruct B as [B|B]; try discriminate; contradiction.
    + exists (ch "-"), (c' :: r'). split; [reflexivity|]. intros B. unfold blank in B. cbn in B. repeat destruct B as [B|B]; try discriminate; contradiction.
  - exists (sign ++ prefix ++ r), e. split; [rewrite E', !app_assoc; reflexivity|eapply digit_not_blank, D'].
Qed.
Lemma int16_spec uni s : int16_ok uni s = true <-> hex_number (map (ascii_char uni) s).
Proof.
  unfold int16_ok. set (m := map (ascii_char uni) s). rewrite (surjective_pairing (take_sign (strip_c m))). rewrite (proj1 (grouped_spec _)). unfold hex_number. split.
  - intros G. destruct (strip_c_spec m) as (b1 & b2 & E & B1 & B2). destruct (take_sign_inv (strip_c m)) as (sign & S & ES).
    destruct (skip_0x_inv (snd (take_sign (strip_c m)))) as (prefix & P & EP).
    exists b1, sign, prefix, (skip_0x (snd (take_sign (strip_c m)))), b2. split; [|auto].
    rewrite E at 1. rewrite ES at 1. rewrite EP at 1. rewrite <- !app_assoc. reflexivity.
  - intros (b1 & sign & prefix & d & b2 & E & B1 & B2 & S & P & G). destruct (core_ends sign prefix d S P G) as (C1 & C2 & C3).
    assert (ST : strip_c m = sign ++ prefix ++ d).
    { rewrite E. replace (b1 ++ sign ++ prefix ++ d ++ b2) with (b1 ++ (sign ++ prefix ++ d) ++ b2) by (rewrite <- !app_assoc; reflexivity). apply strip_c_core; assumption. }
    rewrite ST, take_sign_core by assumption. rewrite skip_0x_core by assumption. exact G.
Qed.
(** C82: exactly what key_is_valid accepts *)
Theorem C82_exactly uni key : key_is_valid uni key = true <-> List.length key = 64%nat /\ hex_number (map (ascii_char uni) key).
Proof.
  unfold key_is_valid. rewrite <- int16_spec. destruct (Nat.eqb_spec (List.length key) 64) as [E|E]; cbn [negb]; split; [auto|tauto|discriminate|tauto].
Qed.
Lemma grouped_all s : s <> [] -> Forall (fun c => exists x, hexdigit c x) s -> grouped_hex s.
Proof.
  intros NE F. induction F as [|c s (x & D) F IH]; [congruence|]. destruct s as [|d s]; [eapply GDigit, D|eapply GMore; [exact D|apply IH; discriminate]].
Qed.
Lemma ascii_hex uni s : Forall (fun c => exists x, hexdigit c x) s -> map (ascii_char uni) s = s.
Proof.
  induction 1 as [|c s (x & D) _ IH]; [reflexivity|]. cbn [map]. rewrite IH. f_equal. unfold ascii_char.
  assert (c < 127) by (rewrite <- hex_val_spec in D; unfold hex_val in D;
    destruct (N.leb_spec 48 c), (N.leb_spec c 57); cbn in D; try lia; destruct (N.leb_spec 97 c), (N.leb_spec c 102); cbn in D; try lia; destruct (N.leb_spec 65 c), (N.leb_spec c 70); cbn in D; try lia; discriminate).
  rewrite (proj2 (N.ltb_lt _ _)) by assumption. reflexivity.
Qed.
(** every key of 64 hexadecimal digits is accepted, and nothing of another length *)
Theorem C82_keys_partial uni key : (List.length key = 64%nat -> Forall (fun c => exists x, hexdigit c x) key -> key_is_valid uni key = true)
  /\ (key_is_valid uni key = true -> List.length key = 64%nat).
Proof.
  split; [|intros H; apply C82_exactly in H; tauto]. intros L F. apply C82_exactly. split; [exact L|]. rewrite ascii_hex by exact F.
  exists [], [], [], key, []. rewrite app_nil_r. repeat split; try constructor; try reflexivity. apply grouped_all; [destruct key; discriminate|exact F].
Qed.
(** REFUTED: prefixes, signs, underscores and blanks are accepted as well, and bytes.fromhex (which verify applies to the key) then raises *)
Definition bad_keys : list pystr := [u "0x" ++ repeat (ch "a") 62; u "-" ++ repeat (ch "1") 63; u "1_" ++ repeat (ch "1") 62; repeat (ch "1") 63 ++ u " "].
Theorem C82_refuted uni key : In key bad_keys -> key_is_valid uni key = true /\ fromhex key = Err EValue.
Proof. intros [<-|[<-|[<-|[<-|[]]]]]; split; reflexivity. Qed.
Example C82_some uni : key_is_valid uni (repeat (ch "7") 64) = true /\ key_is_valid uni (repeat (ch "g") 64) = false /\ key_is_valid uni (repeat (ch "7") 63) = false.
Proof. repeat split. Qed.

(** ** C83: verify *)
(** answers what the library says about the bytes of key, message and signature *)
Theorem C83_verify_partial check vk msg sig k m s : python_str msg -> hex_text vk k -> List.length k = 32%nat -> utf8_text msg m -> hex_text sig s ->
  verify (Some check) vk msg sig = Ok (check k m s).
Proof.
  intros P K L M S. apply fromhex_spec in K, S. apply utf8_spec in M; [|exact P]. unfold verify. rewrite K, M, S. cbn [bindr]. rewrite L. reflexivity.
Qed.
(** and raises for everything else *)
Theorem C83_raises check vk msg sig e : python_str msg -> verify (Some check) vk msg sig = Err e ->
  (forall k, hex_text vk k -> List.length k <> 32%nat) \/ Exists surrogate msg \/ (forall s, ~ hex_text sig s).
Proof.
  intros P. unfold verify. destruct (fromhex vk) as [k|e1] eqn:K; cbn [bindr]; [|intros _; left; intros k' H; apply fromhex_spec in H; congruence].
  destruct (utf8 msg) as [m|e2] eqn:M; cbn [bindr]; [|intros _; right; left; apply utf8_err in M; tauto].
  destruct (fromhex sig) as [s|e3] eqn:S; cbn [bindr]; [|intros _; right; right; intros s' H; apply fromhex_spec in H; congruence].
  destruct (Nat.eqb_spec (List.length k) 32); [discriminate|]. intros _. left. intros k' H. apply fromhex_spec in H. congruence.
Qed.
(** REFUTED: unless other code has imported nacl.signing every call raises *)
Theorem C83_refuted vk msg sig : exists e, verify None vk msg sig = Err e.
Proof.
  unfold verify. destruct (fromhex vk); cbn [bindr]; [|eauto]. destruct (utf8 msg); cbn [bindr]; [|eauto]. destruct (fromhex sig); cbn [bindr]; eauto.
Qed.
Example C83_some : verify (Some (fun k m s => Nat.eqb (List.length s) 2)) (repeat (ch "0") 64) (u "hi") (u "0a0b") = Ok true
  /\ verify (Some (fun k m s => true)) (repeat (ch "0") 62) (u "hi") (u "0a0b") = Err EValue.
Proof. split; reflexivity. Qed.
