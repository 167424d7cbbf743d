(** * C68-C70: randomness *)
From Verif Require Import Model.Base Model.State Model.Dec Model.Time Model.Value Model.Encoder Model.Hdf5 Model.Runtime Model.Driver Model.Orm Model.Exec Model.Executor.
From Verif Require Import Spec.OrmSpec Spec.ExecSpec Proofs.BaseFacts Proofs.DriverFacts Proofs.OrmFacts Proofs.ExecFacts Proofs.ExecRel Proofs.MeterFacts Proofs.TxFacts Proofs.DrvRel Proofs.LogFacts Proofs.CtxFacts Proofs.PhaseRel.
From Verif Require Import Properties.Demo Properties.CtxProps.
From Coq Require Import Lia.
Local Open Scope nat_scope.

(** ** C68 *)
Definition is_some {A} (o : option A) : bool := match o with Some _ => true | None => false end.
Definition seeded (s : mach) : bool := is_some (rt_seeded (s_rt s)).
Definition seeds (o : obs) : bool := match o with OAct _ (ActSeed _) => true | _ => false end.
Definition draws (o : obs) : bool := match o with OAct _ (ActRandom _) => true | _ => false end.
Lemma drawn_app b l l' : drawn_after_seed b l -> drawn_after_seed (b || existsb seeds l) l' -> drawn_after_seed b (l ++ l').
Proof.
  revert b. induction l as [|o l IH]; intros b H H'; cbn in *; [rewrite Bool.orb_false_r in H'; exact H'|].
  destruct o as [e|cs [] | | |]; cbn in *; try (apply IH; assumption).
  - apply IH; [exact H|]. rewrite Bool.orb_true_r in H'. exact H'.
  - destruct H as [-> H]. split; [reflexivity|]. apply IH; assumption.
Qed.
Lemma drawn_none b l : Forall (fun o => draws o = false) l -> drawn_after_seed b l.
Proof.
  revert b. induction l as [|o l IH]; intros b H; [exact I|]. inversion H; subst. destruct o as [e|cs [] | | |]; cbn; try (apply IH; assumption). discriminate.
Qed.
Definition tracked (s : mach) (b : bool) (s' : mach) : Prop :=
  exists l, s_log s' = s_log s ++ l /\ drawn_after_seed (seeded s) l /\ seeded s' = (seeded s || existsb seeds l)%bool.
Lemma tracked_plain s b s' l : s_log s' = s_log s ++ l -> Forall (fun o => draws o = false /\ seeds o = false) l -> seeded s' = seeded s -> tracked s b s'.
Proof.
  intros H1 H2 H3. exists l. split; [exact H1|]. split; [apply drawn_none; eapply Forall_impl; [|exact H2]; intros o [H _]; exact H|].
  assert (H : existsb seeds l = false) by (clear - H2; induction H2 as [|o l [_ H] _ IH]; cbn; [reflexivity|rewrite H; exact IH]). rewrite H, Bool.orb_false_r. exact H3.
Qed.
Lemma tracked_trans s b s1 s2 : tracked s true s1 -> tracked s1 b s2 -> tracked s b s2.
Proof.
  intros (l & A1 & A2 & A3) (l' & B1 & B2 & B3). exists (l ++ l'). rewrite B1, A1, app_assoc. split; [reflexivity|]. rewrite A3 in B2, B3. split; [apply drawn_app; assumption|].
  rewrite B3, existsb_app, Bool.orb_assoc. reflexivity.
Qed.
Lemma tracked_glue s s1 b : glue s s1 -> tracked s b s1.
Proof.
  intros [_ (c & ld & HR) _ (l & HL & HF)]. apply (tracked_plain s b s1 l HL).
  - eapply Forall_impl; [|exact HF]. intros [| | | |] H; try contradiction; split; reflexivity.
  - unfold seeded. rewrite HR. reflexivity.
Qed.
Lemma deduct_seeded kl vl r : rt_seeded (snd (deduct_write kl vl r)) = rt_seeded r.
Proof. unfold deduct_write. destruct (tr_started _); [|reflexivity]. cbv zeta. destruct (Z.ltb _ _); [|reflexivity]. unfold on_tracer. destruct (add_cost _ _). reflexivity. Qed.
Lemma act_seeded L a w : ~ is_random a -> rt_seeded (w_rt (snd (do_act L a w))) = rt_seeded (w_rt w).
Proof.
  intros HN. apply (do_act_gen L (fun _ _ => True) True False (fun w _ w' => rt_seeded (w_rt w') = rt_seeded (w_rt w))); auto.
  - intros x b y z A B. congruence.
  - intros k v b x _. pose proof (set_same k v b (mkS x [] [] false [])) as [_ H]. unfold on_w, s_rt in H. cbn [s_w] in H. destruct (set k v b x). exact H.
  - intros kl vl x. unfold on_rt. pose proof (deduct_seeded kl vl (w_rt x)) as H. destruct (deduct_write kl vl (w_rt x)). exact H.
  - intros [].
  - apply act_sets_any.
Qed.
Lemma act_tracked L a s : tracked s (is_ok (fst (act L a s))) (snd (act L a s)).
Proof.
  assert (HD : is_random a \/ ~ is_random a) by (destruct a; cbn; auto). destruct HD as [HR|HN].
  - destruct a as [ | | | | | | |salt|d| | | ]; try contradiction HR; clear HR.
    + unfold act, on_w. cbn [do_act]. unfold do_seed. rewrite bind_eq. cbn [gets]. rewrite bind_eq. unfold lift. destruct (seed_text L (rt_env (w_rt (s_w s))) salt) as [tx|e]; cbn [fst snd].
      * exists [OAct (get_state (s_ctx s)) (ActSeed salt)]. split; [reflexivity|]. split; [exact I|]. cbn. rewrite Bool.orb_true_r. reflexivity.
      * apply (tracked_plain _ _ _ []); [symmetry; apply app_nil_r|constructor|reflexivity].
    + unfold act, on_w. cbn [do_act]. unfold do_random. rewrite bind_eq. cbn [gets]. destruct (rt_seeded (w_rt (s_w s))) as [[tx ds]|] eqn:ES.
      * rewrite bind_eq. cbn [modify]. unfold lift. assert (HS : seeded s = true) by (unfold seeded, s_rt; rewrite ES; reflexivity). destruct (l_rand L tx ds d) as [v|e]; cbn [fst snd].
        -- exists [OAct (get_state (s_ctx s)) (ActRandom d)]. split; [reflexivity|]. split; [cbn; auto|]. rewrite HS. reflexivity.
        -- apply (tracked_plain _ _ _ []); [symmetry; apply app_nil_r|constructor|]. rewrite HS. reflexivity.
      * apply (tracked_plain _ _ _ []); [symmetry; apply app_nil_r|constructor|reflexivity].
  - pose proof (act_seeded L a (s_w s) HN) as H. unfold act, on_w. destruct (do_act L a (s_w s)) as [[v|e] w']; cbn [fst snd] in *.
    + apply (tracked_plain _ _ _ [OAct (get_state (s_ctx s)) a]); [reflexivity|repeat constructor; destruct a; cbn in *; try reflexivity; exfalso; apply HN; exact I|]. unfold seeded, s_rt. cbn. rewrite H. reflexivity.
    + apply (tracked_plain _ _ _ []); [symmetry; apply app_nil_r|constructor|]. unfold seeded, s_rt. cbn. rewrite H. reflexivity.
Qed.
Lemma line_tracked e s b : tracked s b (snd (line e s)).
Proof.
  apply (tracked_plain _ _ _ [OLine e]); [unfold line, on_w; cbn [s_w note set_log]; destruct (on_rt _ _); reflexivity|repeat constructor|].
  unfold line, on_w, on_rt, on_tracer. cbn [s_w note set_log]. destruct (on_line e _). reflexivity.
Qed.
Lemma guard_tracked ls s : tracked s true (snd (guard ls s)).
Proof.
  assert (H : forall s, tracked s true (snd (foreach line ls s))).
  { induction ls as [|e ls IH]; intros x; cbn [foreach]; [apply (tracked_plain _ _ _ []); [symmetry; apply app_nil_r|constructor|reflexivity]|].
    rewrite bind_eq. pose proof (line_tracked e x true) as H. destruct (line e x) as [[v|y] x1]; cbn [snd] in *; [|exact H]. eapply tracked_trans; [exact H|apply IH]. }
  unfold guard. specialize (H s). destruct (foreach line ls s) as [[v|e] s1]; exact H.
Qed.
Lemma tracked_same s b s' : s_log s' = s_log s -> rt_seeded (s_rt s') = rt_seeded (s_rt s) -> tracked s b s'.
Proof. intros A B. apply (tracked_plain _ _ _ []); [rewrite app_nil_r; exact A|constructor|unfold seeded; rewrite B; reflexivity]. Qed.
Lemma all_code_any L s : all_code (fun _ => True) L s.
Proof. assert (HM : forall md, module_all (fun _ => True) md) by (intros md; constructor; intros; apply each_any). split; [split|]; intros; try apply HM. intros n md _. apply HM. Qed.
(** In a transaction that starts unseeded every random function that returned was preceded by a seed() of the same
    transaction (whatever the result); a normal end leaves the generator unseeded. *)
Theorem C68_seed_first L fuel g t s r s' : rt_seeded (s_rt s) = None -> execute L fuel g t s = (r, s') ->
  drawn_after_seed false (s_log s') /\ (forall out, r = Ok out -> rt_seeded (s_rt s') = None).
Proof.
  intros HS HE. split; [|intros out ->; apply (id_seed _ (executed_idle _ _ _ _ _ _ _ HE))].
  destruct (execute_R L (fun _ => True) tracked) with (fuel := fuel) (g := g) (t := t) (s := s) (r := r) (s' := s') as [->|(b & s2 & (l & H1 & H2 & _) & H3 & _)].
  - intros; apply tracked_same; reflexivity.
  - exact tracked_trans.
  - intros; apply tracked_glue; assumption.
  - intros x b y z A B. destruct A as (l & A1 & A2 & A3). destruct (tracked_glue y z b B) as (l' & B1 & B2 & B3). rewrite A3 in B2, B3. exists (l ++ l'). rewrite B1, A1, app_assoc. split; [reflexivity|].
    split; [apply drawn_app; assumption|]. rewrite B3, existsb_app, Bool.orb_assoc. reflexivity.
  - intros; apply act_tracked.
  - intros; apply line_tracked.
  - intros; apply guard_tracked.
  - intros; apply tracked_same; reflexivity.
  - intros x. apply tracked_same; [reflexivity|]. unfold primed, set_up. destruct (metered g t); reflexivity.
  - intros; exists (fun _ => PRet VNone); exact I.
  - apply all_code_any.
  - exact HE.
  - exact I.
  - rewrite H3, H1. cbn. unfold seeded in H2. change (rt_seeded (s_rt (began s))) with (rt_seeded (s_rt s)) in H2. rewrite HS in H2. exact H2.
Qed.
(** A random function without a seed raises *)
Theorem C68_unseeded_raises L d s : rt_seeded (s_rt s) = None -> act L (ActRandom d) s = (Err EAssertion, s).
Proof. intros H. unfold act, on_w. cbn [do_act]. unfold do_random. rewrite bind_eq. cbn [gets]. fold (s_rt s). rewrite H. cbn [raise]. destruct s as [[]]; reflexivity. Qed.
(** The logs of a history of transactions *)
Fixpoint logs (L : lang) (fuel : nat) (g : cfg) (ts : list txn) (s : mach) : list (list obs) :=
  match ts with [] => [] | t :: ts => let s1 := snd (execute L fuel g t s) in s_log s1 :: logs L fuel g ts s1 end.
(** so in every history of transactions that end normally (successful or failed) *)
Theorem C68_history_partial L fuel g ts s : rt_seeded (s_rt s) = None -> Forall (fun r => is_ok r = true) (fst (executes L fuel g ts s)) -> Forall (drawn_after_seed false) (logs L fuel g ts s).
Proof.
  revert s. induction ts as [|t ts IH]; intros s HS HF; cbn [logs]; [constructor|]. cbn [executes] in HF. destruct (execute L fuel g t s) as [r s1] eqn:HE. cbn [snd]. destruct (C68_seed_first _ _ _ _ _ _ _ HS HE) as [H1 H2].
  destruct (executes L fuel g ts s1) as [rs s2] eqn:ER. cbn [fst] in HF. inversion HF; subst. destruct r as [out|e]; [|discriminate].
  constructor; [exact H1|]. apply IH; [apply (H2 out eq_refl)|]. rewrite ER. assumption.
Qed.
(** ...but not after a transaction that raised out of execute *)
Definition seed_then (p : prog) : prog := PAct (ActSeed None) (fun _ => p).
Definition draw1 : prog := PAct (ActRandom (u "randint", [VInt 0; VInt 9])) (fun v => PRet v).
Definition rand_mod := mkMod (PRet VNone) None [(u "f", mkFunc (Some (u "con_m")) (fun _ => seed_then (PRaise EBase))); (u "h", mkFunc (Some (u "con_m")) (fun _ => draw1)); (u "ok", mkFunc (Some (u "con_m")) (fun _ => seed_then draw1))].
Definition rand_lang := demo [(u "con_m", rand_mod)].
Definition rand_start := idle_mach (deployed (u "con_m") (u "con_m") VNone ++ funded "bob" 100).
Definition rand_run := execute rand_lang 10 cfg0 (call_of "bob" "con_m" "h") (snd (execute rand_lang 10 cfg0 (call_of "bob" "con_m" "f") rand_start)).
Theorem C68_refuted : exists L g t1 t2 s e s1 out s2, idle s /\ execute L 10 g t1 s = (Err e, s1) /\ execute L 10 g t2 s1 = (Ok out, s2) /\ o_status out = 0%Z /\
  ~ drawn_after_seed false (s_log s2).
Proof.
  assert (H1 : fst (execute rand_lang 10 cfg0 (call_of "bob" "con_m" "f") rand_start) = Err EBase) by (vm_compute; reflexivity).
  assert (H2 : match fst rand_run with Ok out => o_status out = 0%Z | Err _ => False end) by (vm_compute; reflexivity). destruct (fst rand_run) as [out|] eqn:E2; [|contradiction].
  exists rand_lang, cfg0, (call_of "bob" "con_m" "f"), (call_of "bob" "con_m" "h"), rand_start, EBase, (snd (execute rand_lang 10 cfg0 (call_of "bob" "con_m" "f") rand_start)), out, (snd rand_run).
  split; [constructor; reflexivity|]. split; [rewrite <- H1; apply surjective_pairing|]. split; [rewrite <- E2; unfold rand_run; apply surjective_pairing|]. split; [exact H2|].
  assert (HL : existsb draws (s_log (snd rand_run)) = true /\ existsb seeds (s_log (snd rand_run)) = false) by (vm_compute; split; reflexivity).
  destruct HL as [HL1 HL2]. revert HL1 HL2. generalize (s_log (snd rand_run)). induction l as [|o l IH]; cbn; [discriminate|]. intros A B.
  destruct o as [e|cs [] | | |]; cbn in *; try (apply IH; assumption); [discriminate|]. intros [X _]. discriminate X.
Qed.
Example C68_example : match execute rand_lang 10 cfg0 (call_of "bob" "con_m" "ok") rand_start with
  | (Ok out, s') => (o_status out, existsb draws (s_log s'), existsb seeds (s_log s')) = (0%Z, true, true) | _ => False end.
Proof. vm_compute. reflexivity. Qed.

(** ** C69 *)
(** The seed depends only on block number, block hash, input hash and salt *)
Theorem C69_seed L env env' salt : same_seed_inputs salt env env' -> seed_text L env salt = seed_text L env' salt.
Proof.
  intros (A & B & C & D & E). unfold seed_text. rewrite A, B, C, D. destruct salt as [n|]; [rewrite (E n eq_refl)|]; reflexivity.
Qed.
(** and the results after seed() depend only on those and on the draws made since *)
Fixpoint draw_all (L : lang) (ds : list draw) : st world (list pyval) :=
  match ds with [] => ret [] | d :: ds => let! v := do_random L d in let! vs := draw_all L ds in ret (v :: vs) end.
Theorem C69_stream L salt ds w w' : same_seed_inputs salt (rt_env (w_rt w)) (rt_env (w_rt w')) ->
  fst ((do_seed L salt;; draw_all L ds) w) = fst ((do_seed L salt;; draw_all L ds) w').
Proof.
  intros H. rewrite !bind_eq. unfold do_seed. rewrite !bind_eq. cbn [gets]. rewrite !bind_eq. unfold lift. rewrite <- (C69_seed L _ _ salt H).
  destruct (seed_text L (rt_env (w_rt w)) salt) as [tx|e]; [|reflexivity]. rewrite !bind_eq. cbn [modify ret].
  assert (HG : forall ds past w w', rt_seeded (w_rt w) = Some (tx, past) -> rt_seeded (w_rt w') = Some (tx, past) -> fst (draw_all L ds w) = fst (draw_all L ds w')).
  { clear. induction ds as [|d ds IH]; intros past w w' H H'; [reflexivity|]. cbn [draw_all]. rewrite !bind_eq. unfold do_random. rewrite !bind_eq. cbn [gets]. rewrite H, H'. rewrite !bind_eq. cbn [modify]. unfold lift.
    destruct (l_rand L tx past d) as [v|e]; [|reflexivity]. rewrite !bind_eq.
    specialize (IH (past ++ [d]) (upd_rt (set_seeded (Some (tx, past ++ [d]))) w) (upd_rt (set_seeded (Some (tx, past ++ [d]))) w') eq_refl eq_refl).
    destruct (draw_all L ds (upd_rt (set_seeded (Some (tx, past ++ [d]))) w)) as [[a|e] x]; destruct (draw_all L ds (upd_rt (set_seeded (Some (tx, past ++ [d]))) w')) as [[b|e'] y]; cbn [fst] in IH; try discriminate IH; [injection IH as ->; reflexivity|injection IH as ->; reflexivity]. }
  apply (HG ds []); reflexivity.
Qed.
Example C69_example : same_seed_inputs (Some (u "salt")) [(u "block_num", VInt 7); (u "now", VInt 1)] [(u "now", VInt 2); (u "block_num", VInt 7)] /\
  seed_text rand_lang [(u "block_num", VInt 7); (u "salt", VStr (u "xyz"))] (Some (u "salt")) = Ok (u "700xyz").
Proof. split; [repeat split; intros n E; injection E as <-; reflexivity|vm_compute; reflexivity]. Qed.

(** ** C70 *)
(** Refuted: the parts are concatenated without separators, and missing values become '0' *)
Theorem C70_refuted : exists L e1 e2 e3 s, pget (u "block_num") e1 <> pget (u "block_num") e2 /\ seed_text L e1 None = Ok s /\ seed_text L e2 None = Ok s /\
  pget (u "block_hash") e1 <> pget (u "block_hash") e3 /\ seed_text L e3 None = Ok s.
Proof.
  exists rand_lang, [(u "block_num", VInt 1); (u "block_hash", VStr (u "23"))], [(u "block_num", VInt 12); (u "block_hash", VStr (u "3"))], [(u "block_num", VInt 1); (u "block_hash", VStr (u "2")); (u "__input_hash", VStr (u "30"))], (u "1230").
  split; [vm_compute; discriminate|]. split; [vm_compute; reflexivity|]. split; [vm_compute; reflexivity|]. split; [vm_compute; discriminate|]. vm_compute; reflexivity.
Qed.
(** True when block numbers are ints and hashes and salts are non-empty strings of fixed lengths (salts may be absent) *)
Record block_env (nb ni na : nat) (z : Z) (bh ih : pystr) (aux : option pystr) (e : dict pyval) : Prop := mkBlockEnv {
  be_num : pget (u "block_num") e = VInt z; be_hash : pget (u "block_hash") e = VStr bh; be_input : pget (u "__input_hash") e = VStr ih;
  be_aux : pget (u "AUXILIARY_SALT") e = match aux with Some a => VStr a | None => VNone end;
  be_nb : List.length bh = S nb; be_ni : List.length ih = S ni; be_na : match aux with Some a => List.length a = S na | None => True end }.
Lemma app_same_length {A} (a b c d : list A) : a ++ b = c ++ d -> List.length b = List.length d -> a = c /\ b = d.
Proof.
  intros H HL. assert (HA : List.length a = List.length c) by (apply (f_equal (@List.length A)) in H; rewrite !app_length in H; lia).
  revert c HA H. induction a as [|x a IH]; intros [|y c] HA H; cbn in *; try discriminate HA; [split; [reflexivity|exact H]|].
  injection H as -> H. injection HA as HA. destruct (IH c HA H) as [-> ->]. split; reflexivity.
Qed.
Lemma truthy_str s n : List.length s = S n -> truthy (VStr s) = true.
Proof. destruct s; [discriminate|reflexivity]. Qed.
Lemma seed_of_block L nb ni na z bh ih aux e s : block_env nb ni na z bh ih aux e -> seed_text L e None = Ok s ->
  s = str_of_Z z ++ bh ++ ih ++ match aux with Some a => a | None => [] end.
Proof.
  intros [A B C D E F G] H. unfold seed_text in H. rewrite A, B, C, D in H. cbn [bindr py_str] in H. unfold py_int_str in H. destruct (Z.leb (Z.of_nat (ndigits (Z.abs_N z))) 4300); [|discriminate H]. cbn [bindr] in H.
  unfold or_zero in H. rewrite (truthy_str bh nb E), (truthy_str ih ni F) in H. destruct aux as [a|]; [rewrite (truthy_str a na G) in H|]; cbn [bindr py_str truthy] in H; injection H as <-; reflexivity.
Qed.
Theorem C70_fixed_lengths_partial L nb ni na e e' z z' bh bh' ih ih' aux aux' s :
  block_env nb ni na z bh ih aux e -> block_env nb ni na z' bh' ih' aux' e' -> (aux = None <-> aux' = None) ->
  seed_text L e None = Ok s -> seed_text L e' None = Ok s -> z = z' /\ bh = bh' /\ ih = ih' /\ aux = aux'.
Proof.
  intros HE HE' HN H H'. pose proof (seed_of_block _ _ _ _ _ _ _ _ _ _ HE H) as E1. pose proof (seed_of_block _ _ _ _ _ _ _ _ _ _ HE' H') as E2. rewrite E1 in E2. clear E1 H H' s.
  destruct HE as [_ _ _ _ E F G]. destruct HE' as [_ _ _ _ E' F' G'].
  assert (LA : List.length (match aux with Some a => a | None => [] end) = List.length (match aux' with Some a => a | None => [] end)).
  { destruct aux, aux'; [congruence|destruct HN as [_ HN]; specialize (HN eq_refl); discriminate|destruct HN as [HN _]; specialize (HN eq_refl); discriminate|reflexivity]. }
  apply app_same_length in E2 as [E2 E3]; [|rewrite !app_length, LA; lia]. apply app_same_length in E3 as [E3 E4]; [|rewrite !app_length, LA; lia]. apply app_same_length in E4 as [E4 E5]; [|exact LA].
  split; [apply str_of_Z_inj; exact E2|]. split; [exact E3|]. split; [exact E4|]. destruct aux, aux'; [congruence|destruct HN as [_ HN]; specialize (HN eq_refl); discriminate|destruct HN as [HN _]; specialize (HN eq_refl); discriminate|reflexivity].
Qed.
Example C70_example : block_env 1 1 0 12 (u "ab") (u "cd") None [(u "block_num", VInt 12); (u "block_hash", VStr (u "ab")); (u "__input_hash", VStr (u "cd"))] /\
  seed_text rand_lang [(u "block_num", VInt 12); (u "block_hash", VStr (u "ab")); (u "__input_hash", VStr (u "cd"))] None = Ok (u "12abcd").
Proof. split; [constructor; try exact I; vm_compute; reflexivity|vm_compute; reflexivity]. Qed.
Print Assumptions C68_seed_first.
Print Assumptions C68_history_partial.
Print Assumptions C68_refuted.
Print Assumptions C69_stream.
Print Assumptions C70_fixed_lengths_partial.
Print Assumptions C70_refuted.
