(** * Parsing printed documents *)
From Verif Require Import Model.Base Model.Dec Model.Time Model.Value Model.Encoder.
From Verif Require Import Spec.DecSpec Spec.TimeSpec Spec.EncSpec Proofs.BaseFacts Proofs.DecFacts Proofs.DecText Proofs.DecFloat Proofs.JsonFacts.
From Coq Require Import Lia.
Local Open Scope N_scope.

(** float numerals and names *)
Definition float_json (t : pystr) : Prop :=
  t = u "NaN" \/ t = u "Infinity" \/ t = u "-Infinity" \/
  exists f, t = frepr_text f /\ frepr_ok f /\ (fr_frac f <> [] \/ fr_exp f <> None) /\ lead_ok (fr_int f).

Fixpoint jok (j : json) : Prop :=
  match j with
  | JNull | JBool _ => True
  | JInt z => int_ok z
  | JFloat t => float_json t
  | JStr s => text_ok s
  | JList l => (fix all l := match l with [] => True | x :: l' => jok x /\ all l' end) l
  | JObj d => (fix all d := match d with [] => True | (k, x) :: d' => text_ok k /\ jok x /\ all d' end) d
  end.
Lemma jok_list l : jok (JList l) <-> Forall jok l.
Proof. induction l as [|x l IH]; cbn [jok]; [split; auto|]. rewrite Forall_cons_iff, <- IH. reflexivity. Qed.
Lemma jok_obj d : jok (JObj d) <-> Forall (fun kv => text_ok (fst kv) /\ jok (snd kv)) d.
Proof. induction d as [|[k x] l IH]; cbn [jok]; [split; auto|]. rewrite Forall_cons_iff, <- IH. cbn [fst snd]. tauto. Qed.

Section Hook.
Variable hook : dict pyval -> result pyval.
(** the value a document denotes, with the object hook applied bottom up *)
Fixpoint of_json (j : json) : result pyval :=
  match j with
  | JNull => Ok VNone
  | JBool b => Ok (VBool b)
  | JInt z => Ok (VInt z)
  | JFloat t => Ok (VFloat (repr_of_text t))
  | JStr s => Ok (VStr s)
  | JList l => do l' <- (fix go l := match l with [] => Ok [] | x :: l' => do y <- of_json x; do ys <- go l'; Ok (y :: ys) end) l;
               Ok (VList l')
  | JObj d => do d' <- (fix go d := match d with [] => Ok [] | (k, x) :: d' => do y <- of_json x; do ys <- go d'; Ok ((k, y) :: ys) end) d;
              hook (dict_of_pairs d')
  end.
Definition of_json_l (l : list json) : result (list pyval) :=
  (fix go l := match l with [] => Ok [] | x :: l' => do y <- of_json x; do ys <- go l'; Ok (y :: ys) end) l.
Definition of_json_d (d : list (pystr * json)) : result (list (pystr * pyval)) :=
  (fix go d := match d with [] => Ok [] | (k, x) :: d' => do y <- of_json x; do ys <- go d'; Ok ((k, y) :: ys) end) d.
Lemma of_json_l_cons x l : of_json_l (x :: l) = do y <- of_json x; do ys <- of_json_l l; Ok (y :: ys).
Proof. reflexivity. Qed.
Lemma of_json_d_cons k x l : of_json_d ((k, x) :: l) = do y <- of_json x; do ys <- of_json_d l; Ok ((k, y) :: ys).
Proof. reflexivity. Qed.
Lemma of_json_list l : of_json (JList l) = do l' <- of_json_l l; Ok (VList l'). Proof. reflexivity. Qed.
Lemma of_json_obj d : of_json (JObj d) = do d' <- of_json_d d; hook (dict_of_pairs d'). Proof. reflexivity. Qed.

(** ** first characters *)
Lemma frepr_text_parts f : exists ex, frepr_text f = sgn_str (fr_neg f) ++ fr_int f ++ frac_text (fr_frac f) ++ ex /\
  (frepr_ok f -> exp_text ex) /\ (fr_exp f <> None -> frepr_ok f -> ex <> []).
Proof.
  exists (match fr_exp f with None => [] | Some (true, k) => u "e-" ++ k | Some (false, k) => u "e+" ++ k end).
  destruct f as [neg ip fp ex]. cbn [fr_neg fr_int fr_frac fr_exp]. rewrite frepr_text_eq. split; [|split].
  - destruct neg; rewrite <- ?app_assoc; reflexivity.
  - unfold frepr_ok, exp_text; cbn [fr_exp]. intros (_ & _ & _ & _ & _ & H). destruct ex as [[[] k]|]; [right|right|left; reflexivity];
      destruct H as (Hk & Hl & _); [exists (ch "-"), k | exists (ch "+"), k]; (split; [reflexivity|]); (split; [auto|]); split; try exact Hk;
      destruct k; cbn in Hl; [lia|discriminate|lia|discriminate].
  - destruct ex as [[[] k]|]; [discriminate|discriminate|congruence].
Qed.
Lemma alld_head s c r : alld s -> s = c :: r -> is_digit c = true.
Proof. intros H ->. apply (alld_In (c :: r)); [exact H|left; reflexivity]. Qed.
Definition numhead (c : N) : Prop := c = ch "-" \/ is_digit c = true.
Lemma frepr_head f : frepr_ok f -> exists c r, frepr_text f = c :: r /\ numhead c.
Proof.
  intros H. destruct (frepr_text_parts f) as (ex & -> & _). destruct H as (Hi & _ & Hne & _).
  destruct (fr_neg f); cbn [sgn_str app]; [eexists _, _; split; [reflexivity|left; reflexivity]|].
  destruct (fr_int f) as [|c r]; [congruence|]. eexists _, _; split; [reflexivity|]. right. exact (alld_head _ _ _ Hi eq_refl).
Qed.
Lemma str_of_Z_head z : exists c r, str_of_Z z = c :: r /\ numhead c.
Proof.
  rewrite str_of_Z_sgn. destruct (Z.ltb z 0); cbn [sgn_str app]; [eexists _, _; split; [reflexivity|left; reflexivity]|].
  destruct (str_of_N_cons (Z.abs_N z)) as (c & s & -> & Hd). eexists _, _; split; [reflexivity|]. right; exact Hd.
Qed.
Lemma numhead_range c : numhead c -> c = 45 \/ (48 <= c <= 57).
Proof. unfold numhead, is_digit. intros [->|H]; [left; reflexivity|right]. apply andb_true_iff in H as [A B]. apply N.leb_le in A, B. lia. Qed.
Definition goodhead (c : N) : Prop := is_ws c = false /\ c <> ch "]" /\ c <> ch "}".
Lemma numhead_good c : numhead c -> goodhead c.
Proof.
  intros H. apply numhead_range in H. unfold goodhead, is_ws. change (ch "]") with 93. change (ch "}") with 125. repeat split; try lia.
Qed.
Lemma print_head j : jok j -> exists c r, print_json j = c :: r /\ goodhead c.
Proof.
  assert (G : forall c, In c [ch "n"; ch "t"; ch "f"; ch "N"; ch "I"; ch "-"; 34; ch "["; ch "{"] -> goodhead c).
  { intros c H. repeat (destruct H as [<-|H]; [repeat split; discriminate|]). contradiction. }
  intros H. destruct j as [|[]|z|t|s|l|d]; cbn [print_json].
  1,2,3: eexists _, _; split; [reflexivity|]; apply G; cbn; tauto.
  - destruct (str_of_Z_head z) as (c & r & -> & Hd). eexists _, _; split; [reflexivity|]. apply numhead_good, Hd.
  - cbn [jok] in H. destruct H as [->|[->|[->|(f & -> & Hf & _)]]].
    1,2,3: eexists _, _; split; [reflexivity|]; apply G; cbn; tauto.
    destruct (frepr_head f Hf) as (c & r & -> & Hd). eexists _, _; split; [reflexivity|]. apply numhead_good, Hd.
  - eexists _, _; split; [reflexivity|]; apply G; cbn; tauto.
  - eexists _, _; split; [reflexivity|]; apply G; cbn; tauto.
  - eexists _, _; split; [reflexivity|]; apply G; cbn; tauto.
Qed.
Lemma skip_ws_good c r : goodhead c -> skip_ws (c :: r) = c :: r.
Proof. intros [H _]. cbn [skip_ws]. rewrite H. reflexivity. Qed.

Lemma literal_ne name c r : match name with x :: _ => x <> c | [] => False end -> literal name (c :: r) = None.
Proof.
  destruct name as [|x n]; [contradiction|]. intros H. unfold literal. cbn [startswith].
  rewrite (proj2 (N.eqb_neq x c)) by assumption. reflexivity.
Qed.

Lemma parse_number_value f s t fl rest c r : s = c :: r -> numhead c -> scan_number s = Some (t, fl, rest) ->
  parse_value hook (S f) s = do v <- number_value t fl; Ok (v, rest).
Proof.
  intros E Hc Hs. cbn [parse_value]. rewrite E at 1. pose proof (numhead_range _ Hc) as R.
  rewrite (proj2 (N.eqb_neq c 34)) by lia. change (ch "{") with 123. change (ch "[") with 91.
  rewrite (proj2 (N.eqb_neq c 123)), (proj2 (N.eqb_neq c 91)) by lia. rewrite Hs.
  rewrite E, !literal_ne by (cbn; lia). reflexivity.
Qed.
Lemma print_str_scan s rest : text_ok s ->
  scan_string (S (List.length ((flat_map esc_char s ++ [34]) ++ rest))) ((flat_map esc_char s ++ [34]) ++ rest) = Some (s, rest).
Proof.
  intros H. rewrite <- app_assoc. cbn [app]. apply scan_print; [exact H|].
  rewrite app_length. assert (List.length s <= List.length (flat_map esc_char s))%nat; [|lia].
  clear. induction s as [|c s IH]; [reflexivity|]. cbn [flat_map List.length]. rewrite app_length. pose proof (esc_char_len c). lia.
Qed.
Lemma float_number f : frepr_ok f -> (fr_frac f <> [] \/ fr_exp f <> None) -> lead_ok (fr_int f) -> forall t, delim t ->
  scan_number (frepr_text f ++ t) = Some (frepr_text f, true, t).
Proof.
  intros Hf Hx Hl t Ht. destruct (frepr_text_parts f) as (ex & E & E1 & E2).
  pose proof Hf as (Hi & Hfr & Hne & _). rewrite E, <- !app_assoc.
  rewrite (scan_number_gen (fr_neg f) (fr_int f) (fr_frac f) ex t Hi Hne Hl Hfr (E1 Hf) Ht).
  f_equal. f_equal. f_equal. destruct Hx as [Hx|Hx].
  - destruct (fr_frac f); [congruence|reflexivity].
  - specialize (E2 Hx Hf). destruct (frac_text (fr_frac f)); [|reflexivity]. destruct ex; [congruence|reflexivity].
Qed.
Lemma repr_of_text_frepr f : frepr_ok f -> repr_of_text (frepr_text f) = frepr_text f.
Proof.
  intros H. unfold repr_of_text. destruct (frepr_head f H) as (c & r & E & Hc). pose proof (numhead_range _ Hc) as R.
  destruct (str_eqb_spec (frepr_text f) (u "NaN")) as [E'|_]. { rewrite E in E'. injection E' as -> _. cbn in R. lia. }
  destruct (str_eqb_spec (frepr_text f) (u "Infinity")) as [E'|_]. { rewrite E in E'. injection E' as -> _. cbn in R. lia. }
  destruct (str_eqb_spec (frepr_text f) (u "-Infinity")) as [E'|_]; [|reflexivity].
  exfalso. destruct (frepr_text_parts f) as (ex & Ep & _). rewrite E' in Ep. destruct H as (Hi & _ & Hne & _).
  destruct (fr_neg f); cbn [sgn_str app u] in Ep.
  - injection Ep as Ep. destruct (fr_int f) as [|d ip]; [congruence|]. cbn [app] in Ep. injection Ep as Ed _.
    pose proof (alld_head _ _ _ Hi eq_refl) as D. rewrite <- Ed in D. discriminate.
  - destruct (fr_int f) as [|d ip]; [congruence|]. cbn [app] in Ep. injection Ep as Ed _.
    pose proof (alld_head _ _ _ Hi eq_refl) as D. rewrite <- Ed in D. discriminate.
Qed.

Definition parses (j : json) : Prop := jok j -> forall fuel rest, (List.length (print_json j) < fuel)%nat -> delim rest ->
  parse_value hook fuel (print_json j ++ rest) = do v <- of_json j; Ok (v, rest).
Lemma join_cons2 sep a b l : join sep (a :: b :: l) = a ++ sep ++ join sep (b :: l). Proof. reflexivity. Qed.
Lemma delim_ws t : delim t -> skip_ws t = t.
Proof. destruct t as [|c t]; [reflexivity|]. intros [->|[->| ->]]; reflexivity. Qed.

Lemma parse_elems_ok x l : Forall parses (x :: l) -> Forall jok (x :: l) -> forall fuel rest,
  (S (List.length (join (u ",") (map print_json (x :: l)))) < fuel)%nat ->
  parse_elems hook fuel (join (u ",") (map print_json (x :: l)) ++ u "]" ++ rest) =
  do vs <- of_json_l (x :: l); Ok (vs, rest).
Proof.
  revert x; induction l as [|y l IH]; intros x HP HJ fuel rest Hf; (destruct fuel as [|f]; [lia|]);
    apply Forall_cons_iff in HP as [Px HP]; apply Forall_cons_iff in HJ as [Jx HJ]; rewrite of_json_l_cons.
  - cbn [map join] in *. cbn [parse_elems]. rewrite (Px Jx f) by (try lia; cbn [u app delim]; tauto).
    destruct (of_json x) as [v|e]; [|reflexivity]. cbn [bindr u app]. reflexivity.
  - change (map print_json (x :: y :: l)) with (print_json x :: print_json y :: map print_json l) in Hf |- *.
    rewrite join_cons2 in Hf |- *. rewrite <- !app_assoc.
    change (print_json y :: map print_json l) with (map print_json (y :: l)) in Hf |- *.
    rewrite !app_length in Hf. change (List.length (u ",")) with 1%nat in Hf.
    cbn [parse_elems]. rewrite (Px Jx f) by (try lia; cbn [u app delim]; tauto).
    destruct (of_json x) as [v|e]; [|reflexivity]. cbn [bindr].
    cbn [u app]. cbn [skip_ws]. change (is_ws (N_of_ascii ",")) with false. cbn iota.
    change (N.eqb (N_of_ascii ",") (ch "]")) with false. change (N.eqb (N_of_ascii ",") (ch ",")) with true. cbn iota.
    pose proof (proj1 (Forall_cons_iff _ _ _) HJ) as [Jy _].
    destruct (print_head y Jy) as (c & r & Ec & Hg).
    assert (Hs : forall t, skip_ws (join [N_of_ascii ","] (map print_json (y :: l)) ++ t) = join [N_of_ascii ","] (map print_json (y :: l)) ++ t).
    { intros t. destruct l as [|y2 l2]; cbn [map join]; rewrite Ec; cbn [app]; apply skip_ws_good; exact Hg. }
    rewrite Hs. specialize (IH y HP HJ f rest ltac:(lia)). cbn [u app] in IH. rewrite IH.
    destruct (of_json_l (y :: l)) as [vs|e]; reflexivity.
Qed.

Definition pmember (kv : pystr * json) : pystr := print_str (fst kv) ++ u ":" ++ print_json (snd kv).
Lemma parse_members_ok k x l : Forall (fun kv => parses (snd kv)) ((k, x) :: l) ->
  Forall (fun kv => text_ok (fst kv) /\ jok (snd kv)) ((k, x) :: l) -> forall fuel rest,
  (S (List.length (join (u ",") (map pmember ((k, x) :: l)))) < fuel)%nat ->
  parse_members hook fuel (join (u ",") (map pmember ((k, x) :: l)) ++ u "}" ++ rest) =
  do vs <- of_json_d ((k, x) :: l); Ok (vs, rest).
Proof.
  revert k x; induction l as [|[k2 y] l IH]; intros k x HP HJ fuel rest Hf; (destruct fuel as [|f]; [lia|]);
    apply Forall_cons_iff in HP as [Px HP]; apply Forall_cons_iff in HJ as [[Jk Jx] HJ]; cbn [fst snd] in *; rewrite of_json_d_cons.
  - cbn [map join] in *. unfold pmember in *; cbn [fst snd] in *. rewrite !app_length in Hf.
    unfold print_str. rewrite <- !app_assoc. cbn [app parse_members]. change (negb (N.eqb 34 34)) with false. cbn iota.
    pose proof (print_str_scan k (u ":" ++ print_json x ++ u "}" ++ rest) Jk) as S. rewrite <- app_assoc in S. cbn [app] in S.
    rewrite S. cbn [u app skip_ws]. change (is_ws (N_of_ascii ":")) with false. cbn iota.
    change (N.eqb (N_of_ascii ":") (ch ":")) with true. cbn [negb].
    destruct (print_head x Jx) as (c & r & Ec & Hg).
    assert (Hs : forall t, skip_ws (print_json x ++ t) = print_json x ++ t) by (intros t; rewrite Ec; cbn [app]; apply skip_ws_good; exact Hg).
    rewrite Hs. rewrite (Px Jx f) by (try lia; cbn [u app delim]; tauto).
    destruct (of_json x) as [v|e]; [|reflexivity]. reflexivity.
  - change (map pmember ((k, x) :: (k2, y) :: l)) with (pmember (k, x) :: pmember (k2, y) :: map pmember l) in Hf |- *.
    rewrite join_cons2 in Hf |- *. change (pmember (k2, y) :: map pmember l) with (map pmember ((k2, y) :: l)) in Hf |- *.
    unfold pmember at 1. unfold pmember at 1 in Hf. cbn [fst snd] in *. rewrite !app_length in Hf. change (List.length (u ",")) with 1%nat in Hf.
    unfold print_str at 1. rewrite <- !app_assoc. cbn [app parse_members]. change (negb (N.eqb 34 34)) with false. cbn iota.
    pose proof (print_str_scan k (u ":" ++ print_json x ++ u "," ++ join (u ",") (map pmember ((k2, y) :: l)) ++ u "}" ++ rest) Jk) as S.
    rewrite <- app_assoc in S. cbn [app] in S. rewrite S. clear S.
    cbn [u app skip_ws]. change (is_ws (N_of_ascii ":")) with false. cbn iota.
    change (N.eqb (N_of_ascii ":") (ch ":")) with true. cbn [negb].
    destruct (print_head x Jx) as (c & r & Ec & Hg).
    assert (Hs : forall t, skip_ws (print_json x ++ t) = print_json x ++ t) by (intros t; rewrite Ec; cbn [app]; apply skip_ws_good; exact Hg).
    rewrite Hs. rewrite (Px Jx f) by (try lia; cbn [u app delim]; tauto).
    destruct (of_json x) as [v|e]; [|reflexivity]. cbn [bindr skip_ws]. change (is_ws (N_of_ascii ",")) with false. cbn iota.
    change (N.eqb (N_of_ascii ",") (ch "}")) with false. change (N.eqb (N_of_ascii ",") (ch ",")) with true. cbn iota.
    assert (Hs2 : forall t, skip_ws (join [N_of_ascii ","] (map pmember ((k2, y) :: l)) ++ t) = join [N_of_ascii ","] (map pmember ((k2, y) :: l)) ++ t).
    { intros t. destruct l as [|y2 l2]; cbn [map join]; reflexivity. }
    rewrite Hs2. specialize (IH k2 y HP HJ f rest ltac:(lia)). cbn [u app] in IH. rewrite IH.
    destruct (of_json_d ((k2, y) :: l)) as [vs|e]; reflexivity.
Qed.

Theorem parse_print j : parses j.
Proof.
  induction j as [|b|z|t|s|l IH|d IH] using json_nested_ind; unfold parses; intros HJ fuel rest Hf Hd; (destruct fuel as [|f]; [lia|]).
  - reflexivity.
  - destruct b; reflexivity.
  - cbn [jok] in HJ. cbn [print_json]. destruct (str_of_Z_head z) as (c & r & E & Hc).
    rewrite (parse_number_value f _ (str_of_Z z) false rest c (r ++ rest)); [|rewrite E; reflexivity|exact Hc|apply scan_number_int; exact Hd].
    cbn [number_value of_json bindr]. apply int_ok_str in HJ. destruct (int_of_str_of_Z _ _ HJ) as [_ ->]. reflexivity.
  - cbn [jok] in HJ. cbn [print_json of_json bindr]. destruct HJ as [->|[->|[->|(fr & -> & Hfr & Hx & Hl)]]]; try reflexivity.
    destruct (frepr_head fr Hfr) as (c & r & E & Hc).
    rewrite (parse_number_value f _ (frepr_text fr) true rest c (r ++ rest)); [|rewrite E; reflexivity|exact Hc|apply float_number; assumption].
    cbn [number_value bindr]. rewrite repr_of_text_frepr by assumption. reflexivity.
  - cbn [jok] in HJ. cbn [print_json of_json bindr]. unfold print_str. rewrite <- app_assoc. cbn [app parse_value].
    change (N.eqb 34 34) with true. cbn iota. rewrite print_str_scan by exact HJ. reflexivity.
  - rewrite of_json_list. apply jok_list in HJ. cbn [print_json] in *. rewrite <- !app_assoc. cbn [u app parse_value].
    change (N.eqb (N_of_ascii "[") 34) with false. change (N.eqb (N_of_ascii "[") (ch "{")) with false. change (N.eqb (N_of_ascii "[") (ch "[")) with true. cbn iota.
    destruct l as [|x l]; [reflexivity|].
    rewrite !app_length in Hf. change (List.length (u "[")) with 1%nat in Hf. change (List.length (u "]")) with 1%nat in Hf.
    pose proof (parse_elems_ok x l IH HJ f rest ltac:(lia)) as P. cbn [u app] in P.
    pose proof (proj1 (Forall_cons_iff _ _ _) HJ) as [Jx _]. destruct (print_head x Jx) as (c & r & Ec & Hg).
    assert (E : exists r2, join [N_of_ascii ","] (map print_json (x :: l)) ++ N_of_ascii "]" :: rest = c :: r2).
    { destruct l; cbn [map join]; rewrite Ec; eexists; reflexivity. }
    destruct E as (r2 & E). rewrite E in *. rewrite (skip_ws_good c r2 Hg). destruct Hg as (_ & Hc & _).
    rewrite (proj2 (N.eqb_neq c (ch "]"))) by exact Hc. rewrite P. destruct (of_json_l (x :: l)); reflexivity.
  - rewrite of_json_obj. apply jok_obj in HJ. change (print_json (JObj d)) with (u "{" ++ join (u ",") (map pmember d) ++ u "}") in Hf |- *. rewrite <- !app_assoc. cbn [u app parse_value].
    change (N.eqb (N_of_ascii "{") 34) with false. change (N.eqb (N_of_ascii "{") (ch "{")) with true. cbn iota.
    destruct d as [|[k x] l]; [reflexivity|].
    rewrite !app_length in Hf. change (List.length (u "{")) with 1%nat in Hf. change (List.length (u "}")) with 1%nat in Hf.
    pose proof (parse_members_ok k x l IH HJ f rest ltac:(lia)) as P. cbn [u app] in P.
    assert (E : exists r2, join [N_of_ascii ","] (map pmember ((k, x) :: l)) ++ N_of_ascii "}" :: rest = 34 :: r2).
    { destruct l; cbn [map join]; eexists; reflexivity. }
    destruct E as (r2 & E). rewrite E in *. cbn [skip_ws]. change (is_ws 34) with false. change (N.eqb 34 (ch "}")) with false. cbn iota.
    rewrite P. destruct (of_json_d ((k, x) :: l)); reflexivity.
Qed.

Lemma loads_print j : jok j -> json_loads hook (print_json j) = of_json j.
Proof.
  intros HJ. destruct (print_head j HJ) as (c & r & E & Hg). pose proof Hg as (Hw & _). unfold json_loads. rewrite E.
  assert (N.eqb c 65279 = false) as ->.
  { clear Hg Hw. destruct (N.eqb_spec c 65279) as [->|]; [exfalso|reflexivity].
    destruct j as [|[]|z|t|s|l|d]; cbn [print_json] in E; try (injection E as E _; discriminate).
    - destruct (str_of_Z_head z) as (c & r' & E' & Hc). rewrite E' in E. injection E as -> _. apply numhead_range in Hc. lia.
    - cbn [jok] in HJ. destruct HJ as [->|[->|[->|(f & -> & Hf & _)]]]; try (injection E as E _; discriminate).
      destruct (frepr_head f Hf) as (c & r' & E' & Hc). rewrite E' in E. injection E as -> _. apply numhead_range in Hc. lia. }
  rewrite (skip_ws_good c r Hg). rewrite <- E. pose proof (parse_print j HJ (S (S (List.length (print_json j)))) [] ltac:(lia) I) as P.
  rewrite app_nil_r in P. rewrite P. destruct (of_json j); reflexivity.
Qed.
End Hook.
