(** * What encoding keeps, what text it writes, and convert_dict *)
From Verif Require Import Model.Base Model.Dec Model.Time Model.Value Model.Encoder.
From Verif Require Import Spec.DecSpec Spec.TimeSpec Spec.EncSpec Proofs.BaseFacts Proofs.DecFacts Proofs.DecOps Proofs.DecText Proofs.DecFloat Proofs.TimeFacts.
From Verif Require Import Proofs.JsonFacts Proofs.ParseFacts Proofs.EncFacts.
From Coq Require Import Lia.
Local Open Scope N_scope.

Lemma bindr_ok {A B} (m : result A) (k : A -> result B) r : bindr m k = Ok r -> exists a, m = Ok a /\ k a = Ok r.
Proof. destruct m; cbn [bindr]; [eauto|discriminate]. Qed.
Ltac inv_bind H :=
  let a := fresh "x" in let E := fresh "E" in let H' := fresh "K" in
  apply bindr_ok in H as (a & E & H').

(** ** decoded values have the JSON shape *)
Lemma shape_list l : json_shape (VList l) <-> Forall json_shape l.
Proof. induction l as [|x l IH]; cbn [json_shape]; [split; auto|]. rewrite Forall_cons_iff, <- IH. reflexivity. Qed.
Definition nkey (k : pykey) : Prop := exists s, k = KStr s /\ ~ In s reserved.
Lemma shape_dict d : json_shape (VDict d) <-> Forall (fun kv => nkey (fst kv) /\ json_shape (snd kv)) d.
Proof. induction d as [|[k x] l IH]; cbn [json_shape]; [split; auto|]. rewrite Forall_cons_iff, <- IH. unfold nkey. cbn [fst snd]. tauto. Qed.

Lemma as_object_shape d v : Forall (fun kv => json_shape (snd kv)) d -> as_object d = Ok v -> json_shape v.
Proof.
  intros HF. unfold as_object.
  destruct (dget (u "__time__") d) eqn:E1. { intros H; inv_bind H. injection K as <-. exact I. }
  destruct (dget (u "__delta__") d) eqn:E2. { intros H; inv_bind H. injection K as <-. exact I. }
  destruct (dget (u "__bytes__") d) eqn:E3. { intros H; inv_bind H. injection K as <-. exact I. }
  destruct (dget (u "__fixed__") d) eqn:E4. { intros H; inv_bind H. injection K as <-. exact I. }
  destruct (dget BIG_KEY d) eqn:E5. { intros H; inv_bind H. injection K as <-. exact I. }
  intros H; injection H as <-. apply shape_dict. rewrite Forall_map. rewrite Forall_forall in *. intros [k x] Hi. cbn [fst snd].
  split; [|exact (HF _ Hi)]. exists k. split; [reflexivity|]. intros Hr.
  assert (Hd : In k (dkeys d)) by (change k with (fst (k, x)); apply in_map; exact Hi).
  unfold reserved in Hr. cbn [In] in Hr. unfold BIG_KEY in E5. apply dget_None in E1, E2, E3, E4, E5.
  destruct Hr as [<-|[<-|[<-|[<-|[<-|[]]]]]]; contradiction.
Qed.
Lemma dict_of_pairs_forall (P : pyval -> Prop) l : Forall (fun kv => P (snd kv)) l -> Forall (fun kv => P (snd kv)) (dict_of_pairs l).
Proof.
  unfold dict_of_pairs, dupdate. intros H.
  assert (G : forall acc : dict pyval, Forall (fun kv => P (snd kv)) acc -> Forall (fun kv => P (snd kv)) (fold_left (fun a kv => dset (fst kv) (snd kv) a) l acc));
    [|apply G; constructor].
  induction H as [|[k x] l Hx Hl IH]; intros acc Ha; cbn [fold_left]; [exact Ha|]. apply IH. cbn [fst snd] in *.
  clear -Ha Hx. induction acc as [|[k' v'] acc IH]; cbn [dset]; [repeat constructor; exact Hx|].
  apply Forall_cons_iff in Ha as [H1 H2]. destruct (str_eqb k k'); constructor; auto.
Qed.
Lemma parse_shape fuel : (forall s v r, parse_value as_object fuel s = Ok (v, r) -> json_shape v) /\
  (forall s ms r, parse_members as_object fuel s = Ok (ms, r) -> Forall (fun kv => json_shape (snd kv)) ms) /\
  (forall s vs r, parse_elems as_object fuel s = Ok (vs, r) -> Forall json_shape vs).
Proof.
  induction fuel as [|f (IH1 & IH2 & IH3)]; [repeat split; intros; discriminate|]. split; [|split].
  - intros s v r H. cbn [parse_value] in H. destruct s as [|c s]; [discriminate|].
    destruct (N.eqb c 34). { destruct (scan_string _ s) as [[t r']|]; [|discriminate]. injection H as <- _. exact I. }
    destruct (N.eqb c (ch "{")).
    { destruct (skip_ws s) as [|c1 r1]; [discriminate|]. destruct (N.eqb c1 (ch "}")).
      - inv_bind H. injection K as <- _. injection E as <-. exact I.
      - inv_bind H. destruct x as [ms r']. inv_bind K. injection K0 as <- _. apply as_object_shape in E0; [exact E0|].
        apply dict_of_pairs_forall. eapply IH2; exact E. }
    destruct (N.eqb c (ch "[")).
    { destruct (skip_ws s) as [|c1 r1]; [discriminate|]. destruct (N.eqb c1 (ch "]")).
      - injection H as <- _. exact I.
      - inv_bind H. destruct x as [l r']. injection K as <- _. apply shape_list. eapply IH3; exact E. }
    destruct (literal (u "null") _); [injection H as <- _; exact I|].
    destruct (literal (u "true") _); [injection H as <- _; exact I|].
    destruct (literal (u "false") _); [injection H as <- _; exact I|].
    destruct (scan_number _) as [[[t fl] r']|].
    { inv_bind H. injection K as <- _. unfold number_value in E. destruct fl; [injection E as <-; exact I|]. inv_bind E. injection K as <-. exact I. }
    destruct (literal (u "NaN") _); [injection H as <- _; exact I|].
    destruct (literal (u "Infinity") _); [injection H as <- _; exact I|].
    destruct (literal (u "-Infinity") _); [injection H as <- _; exact I|discriminate].
  - intros s ms r H. cbn [parse_members] in H. destruct s as [|c s]; [discriminate|]. destruct (negb (N.eqb c 34)); [discriminate|].
    destruct (scan_string _ s) as [[k r1]|]; [|discriminate]. destruct (skip_ws r1) as [|c2 r2]; [discriminate|].
    destruct (negb (N.eqb c2 (ch ":"))); [discriminate|]. inv_bind H. destruct x as [v r3]. pose proof (IH1 _ _ _ E) as Hv.
    destruct (skip_ws r3) as [|c4 r4]; [discriminate|]. destruct (N.eqb c4 (ch "}")).
    + injection K as <- _. constructor; [exact Hv|constructor].
    + destruct (N.eqb c4 (ch ",")); [|discriminate]. inv_bind K. destruct x as [ms' r5]. injection K0 as <- _.
      constructor; [exact Hv|eapply IH2; exact E0].
  - intros s vs r H. cbn [parse_elems] in H. inv_bind H. destruct x as [v r0]. pose proof (IH1 _ _ _ E) as Hv.
    destruct (skip_ws r0) as [|c r1]; [discriminate|]. destruct (N.eqb c (ch "]")).
    + injection K as <- _. constructor; [exact Hv|constructor].
    + destruct (N.eqb c (ch ",")); [|discriminate]. inv_bind K. destruct x as [vs' r2]. injection K0 as <- _.
      constructor; [exact Hv|eapply IH3; exact E0].
Qed.
Lemma decode_shape t v : decode t = Ok v -> json_shape v.
Proof.
  unfold decode. destruct t as [s|]; [|intros H; injection H as <-; exact I].
  destruct (json_loads as_object s) as [w|e] eqn:E.
  - intros H; injection H as <-. unfold json_loads in E. destruct s as [|c s]; [discriminate|]. destruct (N.eqb c 65279); [discriminate|].
    inv_bind E. destruct x as [v r]. destruct (skip_ws r); [|discriminate]. injection K as <-. eapply parse_shape; exact E0.
  - intros H. destruct e; try discriminate. injection H as <-. exact I.
Qed.
Lemma same_shape v : forall w, same v w -> json_shape w -> json_shape v.
Proof.
  induction v as [|b|z|r|s|b|d|d|t|t|l IH|l IH|d IH|i] using pyval_nested_ind; intros w HS HW; try exact I;
    inversion HS; subst; try exact HW.
  - match goal with H : Forall2 same l _ |- _ => rename H into HF end. apply shape_list in HW. apply shape_list. clear HS.
    revert IH HW. induction HF as [|x y l m Hxy HF IHF]; intros; constructor;
      apply Forall_cons_iff in IH as [I1 I2]; apply Forall_cons_iff in HW as [W1 W2]; [eapply I1; eassumption|auto].
  - match goal with H : Forall2 _ d _ |- _ => rename H into HF end. apply shape_dict in HW. apply shape_dict. clear HS.
    revert IH HW. induction HF as [|x y l m [Hk Hxy] HF IHF]; intros; constructor;
      apply Forall_cons_iff in IH as [I1 I2]; apply Forall_cons_iff in HW as [[W0 W1] W2]; [|auto].
    rewrite Hk. split; [exact W0|eapply I1; eassumption].
Qed.
Lemma leaves_list l : leaves_ok (VList l) <-> Forall leaves_ok l.
Proof. induction l as [|x l IH]; cbn [leaves_ok]; [split; auto|]. rewrite Forall_cons_iff, <- IH. reflexivity. Qed.
Lemma leaves_dict d : leaves_ok (VDict d) <-> NoDup (map fst d) /\
  Forall (fun kv => match fst kv with KStr s => text_ok s | KFloat r => float_repr r | _ => True end /\ leaves_ok (snd kv)) d.
Proof.
  cbn [leaves_ok]. apply and_iff_compat_l. induction d as [|[k x] d IH]; [split; auto|]. rewrite Forall_cons_iff, <- IH. cbn [fst snd]. tauto.
Qed.
Lemma storable_iff v : storable v <-> leaves_ok v /\ json_shape v.
Proof.
  induction v as [|b|z|r|s|b|d|d|t|t|l IH|l IH|d IH|i] using pyval_nested_ind; try (cbn [storable leaves_ok json_shape]; tauto).
  - rewrite storable_list, leaves_list, shape_list. rewrite !Forall_forall. rewrite Forall_forall in IH. split.
    + intros H. split; intros x Hx; apply IH; auto.
    + intros [H1 H2] x Hx. apply IH; auto.
  - rewrite storable_dict, leaves_dict, shape_dict. rewrite !Forall_forall. rewrite Forall_forall in IH. split.
    + intros [HN H]. split; [split; [exact HN|]|]; intros kv Hi; destruct (H kv Hi) as [(s & E & Ts & Rs) Hs]; pose proof (proj1 (IH kv Hi) Hs) as [? ?].
      * rewrite E. auto.
      * split; [exists s; auto|assumption].
    + intros [[HN H1] H2]. split; [exact HN|]. intros kv Hi. destruct (H1 kv Hi) as [T L]. destruct (H2 kv Hi) as [(s & E & Rs) S].
      rewrite E in T. split; [exists s; auto|]. apply IH; auto.
Qed.

(** ** the text is printable ASCII *)
Definition pr (c : N) : Prop := 32 <= c <= 126.
Ltac lit := repeat (constructor; [unfold pr; cbn; lia|]); constructor.
Lemma digit_pr c : is_digit c = true -> pr c.
Proof. unfold is_digit, pr. rewrite andb_true_iff, !N.leb_le. lia. Qed.
Lemma Forall_pr_digits s : alld s -> Forall pr s.
Proof. intros H. apply Forall_forall. intros c Hc. apply digit_pr. exact (alld_In _ _ H Hc). Qed.
Lemma esc_char_pr c : c <= 1114111 -> Forall pr (esc_char c).
Proof.
  intros Hc. unfold esc_char.
  assert (HX : forall n, Forall pr (hex4 n)).
  { intros n. unfold hex4. repeat apply Forall_cons; try apply Forall_nil; unfold pr;
      match goal with |- context [hex_digit (?x mod 16)] => pose proof (hex_digit_range (x mod 16) (mod16 x)) end; lia. }
  destruct (N.eqb c 34); [lit|]. destruct (N.eqb c 92); [lit|].
  destruct (N.leb 32 c && N.leb c 126)%bool eqn:E.
  { apply andb_true_iff in E as [A B]. apply N.leb_le in A, B. constructor; [unfold pr; lia|constructor]. }
  do 5 (match goal with |- context [if ?b then _ else _] => destruct b end; [lit|]).
  destruct (N.ltb c 65536).
  - rewrite esc_u_cons. constructor; [unfold pr; lia|]. constructor; [unfold pr; cbn; lia|]. apply HX.
  - rewrite !esc_u_cons. apply Forall_app. split; (constructor; [unfold pr; lia|]; constructor; [unfold pr; cbn; lia|]; apply HX).
Qed.

(** what can appear in a document built from well-formed leaves *)
Definition numeral (t : pystr) : Prop := Forall (fun c => 33 <= c <= 126 /\ c <> 34) t.
Definition codes (s : pystr) : Prop := Forall (fun c => c <= 1114111) s.
Fixpoint jchars (j : json) : Prop :=
  match j with
  | JNull | JBool _ | JInt _ => True
  | JFloat t => numeral t
  | JStr s => codes s
  | JList l => (fix all l := match l with [] => True | x :: l' => jchars x /\ all l' end) l
  | JObj d => (fix all d := match d with [] => True | (k, x) :: d' => codes k /\ jchars x /\ all d' end) d
  end.
Lemma jchars_list l : jchars (JList l) <-> Forall jchars l.
Proof. induction l as [|x l IH]; cbn [jchars]; [split; auto|]. rewrite Forall_cons_iff, <- IH. reflexivity. Qed.
Lemma jchars_obj d : jchars (JObj d) <-> Forall (fun kv => codes (fst kv) /\ jchars (snd kv)) d.
Proof. induction d as [|[k x] l IH]; cbn [jchars]; [split; auto|]. rewrite Forall_cons_iff, <- IH. cbn [fst snd]. tauto. Qed.

Lemma text_ok_codes s : text_ok s -> codes s.
Proof. induction s as [|c s IH]; cbn [text_ok]; [constructor|]. intros (H1 & _ & H2). constructor; [exact H1|apply IH; exact H2]. Qed.
Lemma numeral_codes t : numeral t -> codes t.
Proof. apply Forall_impl. intros c [H _]. lia. Qed.
Lemma small_codes s : (forall c, In c s -> c < 128) -> codes s.
Proof. intros H. apply Forall_forall. intros c Hc. apply H in Hc. lia. Qed.
Lemma numchar_numeral s : (forall c, In c s -> numchar c) -> numeral s.
Proof.
  intros H. apply Forall_forall. intros c Hc. apply H in Hc. unfold numchar, is_digit in Hc.
  repeat destruct Hc as [Hc|Hc]; try (rewrite Hc; cbn; lia). apply andb_true_iff in Hc as [A B]. apply N.leb_le in A, B. lia.
Qed.
Lemma digits_numeral s : alld s -> numeral s.
Proof. intros H. apply numchar_numeral. intros c Hc. exact (alld_numchar _ _ H Hc). Qed.
Lemma float_repr_numeral r : float_repr r -> numeral (float_text r).
Proof.
  intros H. destruct (float_text_ok r H) as [F _]. destruct F as [->|[->|[->|(f & -> & Hf & _)]]];
    try (repeat (constructor; [cbn; lia|]); constructor).
  destruct (frepr_text_parts f) as (ex & -> & He & _). specialize (He Hf). destruct Hf as (Hi & Hfr & _).
  repeat (apply Forall_app; split).
  - apply numchar_numeral. intros c Hc. exact (in_sgn _ _ Hc).
  - apply digits_numeral; exact Hi.
  - apply numchar_numeral. intros c Hc. exact (in_frac _ _ Hfr Hc).
  - destruct He as [->|(sg & k & -> & Hs & Hk & _)]; [constructor|].
    constructor; [cbn; lia|]. constructor; [destruct Hs as [->| ->]; cbn; lia|]. apply digits_numeral; exact Hk.
Qed.
Lemma json_key_codes k s : match k with KStr s => text_ok s | KFloat r => float_repr r | _ => True end -> json_key k = Ok s -> codes s.
Proof.
  destruct k as [t|z|[]| |r|i]; cbn [json_key]; intros H E; try discriminate.
  - injection E as <-. apply text_ok_codes; exact H.
  - destruct (int_of_str_of_Z _ _ E) as [-> _]. apply numeral_codes, numchar_numeral. intros c Hc. exact (str_of_Z_numchar _ c Hc).
  - injection E as <-. apply small_codes. intros c Hc. cbn in Hc. lia.
  - injection E as <-. apply small_codes. intros c Hc. cbn in Hc. lia.
  - injection E as <-. apply small_codes. intros c Hc. cbn in Hc. lia.
  - injection E as <-. apply numeral_codes, float_repr_numeral; exact H.
Qed.
Lemma jchars_single k x : codes k -> jchars x -> jchars (JObj [(k, x)]).
Proof. intros H1 H2. apply jchars_obj. constructor; [split; assumption|constructor]. Qed.
Lemma jchars_jints l : jchars (jints l).
Proof. apply jchars_list. apply Forall_map. apply Forall_forall. intros z _; exact I. Qed.
Lemma leaves_tuple l : leaves_ok (VTuple l) <-> Forall leaves_ok l.
Proof. induction l as [|x l IH]; cbn [leaves_ok]; [split; auto|]. rewrite Forall_cons_iff, <- IH. reflexivity. Qed.
Lemma to_json_l_ok l js : to_json_l l = Ok js -> Forall2 (fun v j => to_json v = Ok j) l js.
Proof.
  revert js; induction l as [|x l IH]; intros js H; [injection H as <-; constructor|].
  rewrite to_json_l_cons in H. inv_bind H. inv_bind K. injection K0 as <-. constructor; auto.
Qed.
Lemma to_json_d_ok d js : to_json_d d = Ok js -> Forall2 (fun kv kj => json_key (fst kv) = Ok (fst kj) /\ to_json (snd kv) = Ok (snd kj)) d js.
Proof.
  revert js; induction d as [|[k x] l IH]; intros js H; [injection H as <-; constructor|].
  rewrite to_json_d_cons in H. inv_bind H. inv_bind K. inv_bind K0. injection K as <-. constructor; auto.
Qed.
Lemma to_json_chars v : leaves_ok v -> forall j, to_json v = Ok j -> jchars j.
Proof.
  induction v as [|b|z|r|s|b|d|d|t|t|l IH|l IH|d IH|i] using pyval_nested_ind; intros HL j H; cbn [to_json] in H.
  - injection H as <-. exact I.
  - injection H as <-. exact I.
  - inv_bind H. injection K as <-. exact I.
  - injection H as <-. cbn [jchars]. apply float_repr_numeral; exact HL.
  - injection H as <-. apply text_ok_codes; exact HL.
  - injection H as <-. apply jchars_single; [apply small_codes; intros c Hc; cbn in Hc; lia|].
    cbn [jchars]. apply small_codes. intros c Hc. apply hex_of_bytes_chars in Hc; [lia|exact HL].
  - inv_bind H. injection K as <-. apply jchars_single; [apply small_codes; intros c Hc; cbn in Hc; lia|].
    cbn [jchars]. apply numeral_codes, numchar_numeral. intros c Hc. unfold dec_str in Hc; exact (fd_to_str_numchar false _ c Hc).
  - inv_bind H. injection K as <-. apply jchars_single; [apply small_codes; intros c Hc; cbn in Hc; lia|].
    cbn [jchars]. apply numeral_codes, numchar_numeral. intros c Hc. unfold dec_str in Hc; exact (fd_to_str_numchar false _ c Hc).
  - injection H as <-. apply jchars_single; [apply small_codes; intros c Hc; cbn in Hc; lia|apply jchars_jints].
  - injection H as <-. apply jchars_single; [apply small_codes; intros c Hc; cbn in Hc; lia|apply jchars_jints].
  - change (to_json (VList l) = Ok j) in H. rewrite to_json_list in H. inv_bind H. injection K as <-. apply jchars_list. apply leaves_list in HL.
    apply to_json_l_ok in E. revert IH HL. induction E; intros; constructor; apply Forall_cons_iff in IH as [I1 I2]; apply Forall_cons_iff in HL as [L1 L2]; auto.
  - change (to_json (VTuple l) = Ok j) in H. rewrite to_json_tuple in H. inv_bind H. injection K as <-. apply jchars_list. apply leaves_tuple in HL.
    apply to_json_l_ok in E. revert IH HL. induction E; intros; constructor; apply Forall_cons_iff in IH as [I1 I2]; apply Forall_cons_iff in HL as [L1 L2]; auto.
  - change (to_json (VDict d) = Ok j) in H. rewrite to_json_dict in H. inv_bind H. injection K as <-. apply jchars_obj. apply leaves_dict in HL as [_ HL].
    apply to_json_d_ok in E. revert IH HL. induction E as [|kv kj l m [E1 E2] E IHE]; intros; constructor; apply Forall_cons_iff in IH as [I1 I2]; apply Forall_cons_iff in HL as [[L0 L1] L2]; auto.
    split; [eapply json_key_codes; eassumption|auto].
  - discriminate.
Qed.
Lemma wraps_leaves v : leaves_ok v -> forall w, wraps v w -> leaves_ok w.
Proof.
  induction v as [|b|z|r|s|b|d|d|t|t|l IH|l IH|d IH|i] using pyval_nested_ind; intros HL w HW; inversion HW; subst; try contradiction; try exact HL.
  - apply leaves_dict. split; [repeat constructor; intros []|]. constructor; [|constructor]. cbn [fst snd leaves_ok].
    match goal with H : py_int_str z = Ok ?s0 |- _ => destruct (int_of_str_of_Z _ _ H) as [-> _] end.
    split; [apply text_ok_ascii; intros c Hc; cbn in Hc; lia|]. apply text_ok_num. intros c Hc. exact (str_of_Z_numchar _ c Hc).
  - apply leaves_list in HL. apply leaves_list. match goal with H : Forall2 wraps l _ |- _ => rename H into HF end. clear HW.
    revert IH HL. induction HF; intros; constructor; apply Forall_cons_iff in IH as [I1 I2]; apply Forall_cons_iff in HL as [L1 L2]; auto.
  - apply leaves_tuple in HL. apply leaves_tuple. match goal with H : Forall2 wraps l _ |- _ => rename H into HF end. clear HW.
    revert IH HL. induction HF; intros; constructor; apply Forall_cons_iff in IH as [I1 I2]; apply Forall_cons_iff in HL as [L1 L2]; auto.
  - apply leaves_dict in HL as [HN HL]. apply leaves_dict. match goal with H : Forall2 _ d _ |- _ => rename H into HF end. clear HW. split.
    + replace (map fst e) with (map fst d); [exact HN|]. clear -HF. induction HF as [|x y d e [H _] _ IH]; [reflexivity|]. cbn [map]. rewrite H, IH. reflexivity.
    + clear HN. revert IH HL. induction HF as [|x y d e [E W] HF IHF]; intros; constructor; apply Forall_cons_iff in IH as [I1 I2]; apply Forall_cons_iff in HL as [[L0 L1] L2]; auto.
      rewrite <- E. auto.
Qed.
Lemma preprocess_wraps v w : preprocess v = Ok w -> wraps v w.
Proof.
  intros H. destruct v; try (injection H as <-; apply wraps_refl).
  - apply encode_int_wraps; exact H.
  - apply (proj1 (eid_wraps _)); exact H.
Qed.
Lemma encode_chars v t : leaves_ok v -> encode v = Ok t -> exists j, t = print_json j /\ jchars j.
Proof.
  intros HL H. unfold encode in H. inv_bind H. inv_bind K. injection K0 as <-. exists x0. split; [reflexivity|].
  eapply to_json_chars; [|exact E0]. eapply wraps_leaves; [exact HL|]. apply preprocess_wraps; exact E.
Qed.

Lemma Forall_join (P : N -> Prop) sep l : Forall P sep -> Forall (Forall P) l -> Forall P (join sep l).
Proof.
  intros Hs H. induction H as [|x l Hx Hl IH]; [constructor|]. destruct l as [|y l]; [exact Hx|].
  change (join sep (x :: y :: l)) with (x ++ sep ++ join sep (y :: l)). repeat (apply Forall_app; split; auto).
Qed.
Lemma print_str_pr s : codes s -> Forall pr (print_str s).
Proof.
  intros H. unfold print_str. apply Forall_app. split; [constructor; [unfold pr; lia|constructor]|].
  apply Forall_app. split; [|constructor; [unfold pr; lia|constructor]].
  induction H as [|c s Hc Hs IH]; cbn [flat_map]; [constructor|]. apply Forall_app. split; [apply esc_char_pr; exact Hc|exact IH].
Qed.
Lemma print_json_pr j : jchars j -> Forall pr (print_json j).
Proof.
  induction j as [|b|z|t|s|l IH|d IH] using json_nested_ind; intros H.
  - lit.
  - destruct b; lit.
  - cbn [print_json]. apply Forall_forall. intros c Hc. apply str_of_Z_numchar in Hc.
    assert (numeral [c]) as N1 by (apply numchar_numeral; intros x [<-|[]]; exact Hc). apply Forall_inv in N1. unfold pr. lia.
  - cbn [print_json]. cbn [jchars] in H. eapply Forall_impl; [|exact H]. intros c [Hc _]. unfold pr. lia.
  - apply print_str_pr; exact H.
  - apply jchars_list in H. cbn [print_json]. apply Forall_app; split; [lit|]. apply Forall_app; split; [|lit].
    apply Forall_join; [lit|]. apply Forall_map. rewrite Forall_forall in *. auto.
  - apply jchars_obj in H. cbn [print_json]. apply Forall_app; split; [lit|]. apply Forall_app; split; [|lit].
    apply Forall_join; [lit|]. apply Forall_map. rewrite Forall_forall in *. intros kv Hi. destruct (H kv Hi) as [H1 H2].
    apply Forall_app; split; [apply print_str_pr; exact H1|]. apply Forall_app; split; [lit|auto].
Qed.

(** outside string literals there are no spaces *)
Lemma outside_plain p t : Forall (fun c => c <> 34) p -> outside false false (p ++ t) = p ++ outside false false t.
Proof.
  intros H. induction H as [|c p Hc Hp IH]; [reflexivity|]. cbn [app outside]. rewrite (proj2 (N.eqb_neq c 34) Hc), IH. reflexivity.
Qed.
Lemma outside_esc c t : c <= 1114111 -> outside true false (esc_char c ++ t) = outside true false t.
Proof.
  intros Hc.
  assert (HX : forall n t, outside true false (hex4 n ++ t) = outside true false t).
  { intros n t'. unfold hex4. cbn [app outside].
    repeat match goal with |- context [hex_digit (?x mod 16)] =>
      pose proof (hex_digit_range (x mod 16) (mod16 x)); generalize dependent (hex_digit (x mod 16)); intros end.
    repeat match goal with |- context [N.eqb ?a ?b] => rewrite (proj2 (N.eqb_neq a b)) by lia end. reflexivity. }
  unfold esc_char.
  destruct (N.eqb_spec c 34); [reflexivity|]. destruct (N.eqb_spec c 92); [reflexivity|].
  destruct (N.leb 32 c && N.leb c 126)%bool.
  { cbn [app outside]. rewrite (proj2 (N.eqb_neq c 34)), (proj2 (N.eqb_neq c 92)) by assumption. reflexivity. }
  do 5 (match goal with |- context [if ?b then _ else _] => destruct b end; [reflexivity|]).
  destruct (N.ltb c 65536).
  - rewrite esc_u_cons. cbn [app outside]. change (N.eqb 92 92) with true. cbn iota. apply HX.
  - rewrite !esc_u_cons, <- app_assoc. cbn [app outside]. change (N.eqb 92 92) with true. cbn iota. rewrite HX. cbn [outside].
    change (N.eqb 92 92) with true. cbn iota. apply HX.
Qed.
Lemma outside_str s t : codes s -> outside false false (print_str s ++ t) = outside false false t.
Proof.
  intros H. unfold print_str. rewrite <- !app_assoc. cbn [app outside]. change (N.eqb 34 34) with true. cbn iota.
  induction H as [|c s Hc Hs IH]; cbn [flat_map]; [reflexivity|]. rewrite <- app_assoc, outside_esc by exact Hc. exact IH.
Qed.
Definition skel (p : pystr) : Prop := exists sk, ~ In 32 sk /\ forall t, outside false false (p ++ t) = sk ++ outside false false t.
Lemma skel_plain p : Forall (fun c => c <> 34 /\ c <> 32) p -> skel p.
Proof.
  intros H. exists p. split.
  - intros Hi. rewrite Forall_forall in H. destruct (H _ Hi). congruence.
  - intros t. apply outside_plain. eapply Forall_impl; [|exact H]. intros c [Hc _]; exact Hc.
Qed.
Lemma skel_app p q : skel p -> skel q -> skel (p ++ q).
Proof.
  intros (s1 & N1 & H1) (s2 & N2 & H2). exists (s1 ++ s2). split.
  - intros Hi. apply in_app_or in Hi. tauto.
  - intros t. rewrite <- !app_assoc, H1, H2. reflexivity.
Qed.
Lemma skel_join l : Forall skel l -> skel (join (u ",") l).
Proof.
  intros H. induction H as [|x l Hx Hl IH]; [apply skel_plain; constructor|]. destruct l as [|y l]; [exact Hx|].
  change (join (u ",") (x :: y :: l)) with (x ++ u "," ++ join (u ",") (y :: l)).
  apply skel_app; [exact Hx|]. apply skel_app; [apply skel_plain; constructor; [cbn; lia|constructor]|exact IH].
Qed.
Lemma skel_str s : codes s -> skel (print_str s).
Proof. intros H. exists []. split; [intros []|]. intros t. apply outside_str; exact H. Qed.
Ltac plit := apply skel_plain; repeat (constructor; [cbn; lia|]); constructor.
Lemma print_skel j : jchars j -> skel (print_json j).
Proof.
  induction j as [|b|z|t|s|l IH|d IH] using json_nested_ind; intros H.
  - plit.
  - destruct b; plit.
  - cbn [print_json]. apply skel_plain.
    assert (N1 : numeral (str_of_Z z)) by (apply numchar_numeral; intros c Hc; exact (str_of_Z_numchar _ c Hc)).
    eapply Forall_impl; [|exact N1]. intros c [? ?]. lia.
  - cbn [print_json]. cbn [jchars] in H. apply skel_plain. eapply Forall_impl; [|exact H]. intros c [? ?]. lia.
  - apply skel_str; exact H.
  - apply jchars_list in H. cbn [print_json]. apply skel_app; [plit|]. apply skel_app; [|plit].
    apply skel_join. apply Forall_map. rewrite Forall_forall in *. auto.
  - apply jchars_obj in H. cbn [print_json]. apply skel_app; [plit|]. apply skel_app; [|plit].
    apply skel_join. apply Forall_map. rewrite Forall_forall in *. intros kv Hi. destruct (H kv Hi) as [H1 H2].
    apply skel_app; [apply skel_str; exact H1|]. apply skel_app; [plit|auto].
Qed.
Lemma utf8_len_ascii t : Forall pr t -> utf8_len t = Ok (List.length t).
Proof.
  intros H. unfold utf8_len.
  assert (existsb is_surrogate t = false) as ->.
  { induction H as [|c t Hc Ht IH]; [reflexivity|]. cbn [existsb]. rewrite IH, orb_false_r. unfold is_surrogate, pr in *.
    apply andb_false_iff. left. apply N.leb_gt. lia. }
  f_equal. induction H as [|c t Hc Ht IH]; [reflexivity|]. cbn [fold_right List.length]. rewrite IH.
  unfold utf8_char_len. unfold pr in Hc. rewrite (proj2 (N.ltb_lt c 128)) by lia. reflexivity.
Qed.
