(** * The entries of a contract during transactions *)
From Verif Require Import Model.Base Model.State Model.Dec Model.Time Model.Value Model.Encoder Model.Hdf5 Model.Runtime Model.Driver Model.Orm Model.Exec Model.Executor.
From Verif Require Import Spec.OrmSpec Spec.DriverSpec Spec.ExecSpec Spec.SubmitSpec Proofs.BaseFacts Proofs.DriverFacts Proofs.OrmFacts Proofs.ExecFacts Proofs.ExecRel Proofs.MeterFacts Proofs.TxFacts Proofs.DrvRel.
From Coq Require Import Lia.

(** ** Names *)
Lemma last_dot (a b s t : pystr) : ~ In DOT s -> ~ In DOT t -> a ++ DOT :: s = b ++ DOT :: t -> a = b /\ s = t.
Proof.
  intros Hs Ht. revert b. induction a as [|x a IH]; intros [|y b] H; cbn [app] in H.
  - injection H as ->. auto.
  - exfalso. injection H as _ H. apply Hs. rewrite H. apply in_or_app. right. left. reflexivity.
  - exfalso. injection H as _ H. apply Ht. rewrite <- H. apply in_or_app. right. left. reflexivity.
  - injection H as -> H. destruct (IH b H) as [-> ->]. auto.
Qed.
Lemma entries_disjoint c c' k : In k (contract_entries c) -> In k (contract_entries c') -> c = c'.
Proof.
  assert (HD : forall c k, In k (contract_entries c) -> exists s, ~ In DOT s /\ k = c ++ DOT :: s).
  { intros x y H. cbn [contract_entries In] in H.
    destruct H as [<-|[<-|[<-|[<-|[<-|[]]]]]]; [exists (u "__code__")|exists (u "__compiled__")|exists (u "__owner__")|exists (u "__submitted__")|exists (u "__developer__")];
      (split; [vm_compute; intuition discriminate|reflexivity]). }
  intros H1 H2. destruct (HD _ _ H1) as (s & Hs & E1). destruct (HD _ _ H2) as (s' & Hs' & E2). rewrite E1 in E2. exact (proj1 (last_dot _ _ _ _ Hs Hs' E2)).
Qed.
Lemma entry_keys c n : In n [CODE_KEY; COMPILED_KEY; OWNER_KEY; TIME_KEY; DEVELOPER_KEY] -> In (make_key c n []) (contract_entries c).
Proof.
  cbn [In]. intros [<-|[<-|[<-|[<-|[<-|[]]]]]]; cbn [contract_entries In].
  - left. reflexivity.
  - right. left. reflexivity.
  - right. right. left. reflexivity.
  - right. right. right. left. reflexivity.
  - right. right. right. right. left. reflexivity.
Qed.

(** ** Listing yields only keys with the prefix *)
Lemma dupdate_keys {V} (e d : dict V) k : In k (dkeys (dupdate d e)) -> In k (dkeys d) \/ In k (dkeys e).
Proof.
  unfold dupdate. revert d. induction e as [|[k' x] e IH]; intros d H; cbn [fold_left] in H; [left; exact H|].
  apply IH in H as [H|H]; [|right; right; exact H]. cbn [fst snd] in H. apply In_dkeys_dset in H as [->|H]; [right; left; reflexivity|left; exact H].
Qed.
Lemma live_keys k p d : In k (dkeys (live p d)) -> startswith k p = true.
Proof. intros H. apply in_map_iff in H as ((k' & x) & <- & H). apply In_live in H. apply H. Qed.
Lemma mapm_keys l v r v' : mapm (fun k => let! x := get k in ret (k, x)) l v = (Ok r, v') -> dkeys r = l.
Proof.
  revert v r v'. induction l as [|k l IH]; intros v r v' H; cbn [mapm] in H.
  - injection H as <- _. reflexivity.
  - rewrite bind_eq in H. rewrite bind_eq in H. destruct (get k v) as [[x|e] v1]; [|discriminate]. cbn [ret] in H.
    rewrite bind_eq in H. destruct (mapm _ l v1) as [[y|e] v2] eqn:E; [|discriminate]. injection H as <- _. cbn. f_equal. exact (IH _ _ _ E).
Qed.
Lemma items_prefix ord p v i v' k : set_order ord -> items ord p v = (Ok i, v') -> In k (dkeys i) -> startswith k p = true.
Proof.
  intros HO H Hi. unfold items in H. rewrite bind_eq in H. cbn [gets] in H. rewrite bind_eq in H. unfold lift in H.
  destruct (iter_from_disk p (dv_disk v)) as [db|e] eqn:ED; [|discriminate]. rewrite bind_eq in H.
  match type of H with (match mapm ?f ?l ?x with _ => _ end) = _ => destruct (mapm f l x) as [[ex|e] v2] eqn:EM; [|discriminate H] end.
  injection H as <- _. apply mapm_keys in EM.
  apply dupdate_keys in Hi as [Hi|Hi].
  - apply dupdate_keys in Hi as [Hi|Hi]; [|exact (live_keys _ _ _ Hi)]. apply dupdate_keys in Hi as [[]|Hi]. exact (live_keys _ _ _ Hi).
  - rewrite EM in Hi. apply (proj1 (HO _ _)) in Hi. apply filter_In in Hi as [Hi _]. unfold iter_from_disk in ED. destruct (parse_key p) as [fn g].
    destruct (is_file (dv_disk v) fn) as [b|]; [|discriminate]. cbn [bindr] in ED. injection ED as <-. destruct b; [|destruct Hi]. apply In_str_sort, filter_In in Hi. apply Hi.
Qed.

(** ** The relation *)
Section Still.
  Variables (L : lang) (c : pystr) (K : list pystr).
  Hypothesis K_code : In (make_key c CODE_KEY []) K.
  Hypothesis K_entries : forall k, In k K -> In k (contract_entries c).
  Hypothesis Ord : set_order (l_ord L).
  Definition present (v : driver) : Prop := exists x, find (make_key c CODE_KEY []) v = Ok x /\ x <> VNone.
  Record still (v v' : driver) : Prop := mkStill {
    sl_base : dv_cache v' = dv_cache v /\ dv_disk v' = dv_disk v /\ dv_bypass v' = dv_bypass v;
    sl_nodup : NoDup (dkeys (dv_writes v)) -> NoDup (dkeys (dv_writes v'));
    sl_pend : present v -> forall k, In k K -> dget k (dv_writes v') = dget k (dv_writes v) }.
  Lemma still_find v v' : still v v' -> present v -> forall k, In k K -> find k v' = find k v.
  Proof using. intros [(A1 & A2 & A3) _ H] HP k Hk. unfold find, pget. rewrite A1, A2, A3, (H HP k Hk). reflexivity. Qed.
  Lemma still_refl v : still v v.
  Proof using. constructor; auto. Qed.
  Lemma still_present v v' : still v v' -> present v -> present v'.
  Proof using K_code. intros H HP. pose proof (still_find _ _ H HP _ K_code) as E. destruct HP as (x & H1 & H2). exists x. rewrite E. auto. Qed.
  Lemma still_trans a b d : still a b -> still b d -> still a d.
  Proof using K_code.
    intros H1 H2. pose proof (still_present _ _ H1) as HP. destruct H1 as [(A1 & A2 & A3) B1 E1], H2 as [(A1' & A2' & A3') B2 E2]. constructor; [repeat split; congruence|auto|].
    intros H k Hk. rewrite (E2 (HP H) k Hk). apply E1; assumption.
  Qed.
  Lemma still_reads x v : still v (set_reads x v).
  Proof using. constructor; [repeat split; reflexivity|auto|]. intros _ k _. reflexivity. Qed.
  Lemma still_same v v' : dv_cache v' = dv_cache v -> dv_disk v' = dv_disk v -> dv_bypass v' = dv_bypass v -> dv_writes v' = dv_writes v -> still v v'.
  Proof using. intros H1 H2 H3 H4. constructor; [auto|rewrite H4; auto|]. intros _ k _. rewrite H4. reflexivity. Qed.
  Lemma still_dset k y v v' : ~ In k K -> dv_cache v' = dv_cache v -> dv_disk v' = dv_disk v -> dv_bypass v' = dv_bypass v -> dv_writes v' = dset k y (dv_writes v) -> still v v'.
  Proof using.
    intros HK H1 H2 H3 H4. constructor; [auto|rewrite H4; apply NoDup_dset|].
    intros _ k' Hk'. rewrite H4, dget_dset. destruct (str_eqb_spec k' k) as [->|]; [contradiction|reflexivity].
  Qed.
  Lemma still_set k x b w : ~ In k K -> still (w_drv w) (w_drv (snd (set k x b w))).
  Proof using.
    intros HK. destruct (set_spec k x b w) as [(y & r & t & _ & _ & _ & H & _)|(e & r & _ & H)]; rewrite H; [|apply still_reads].
    eapply still_dset; [exact HK|..]; destruct (w_drv w); reflexivity.
  Qed.
  (** the storage parts without the entries *)
  Record mild (v v' : driver) : Prop := mkMild {
    ml_base : dv_cache v' = dv_cache v /\ dv_disk v' = dv_disk v /\ dv_bypass v' = dv_bypass v;
    ml_nodup : NoDup (dkeys (dv_writes v)) -> NoDup (dkeys (dv_writes v')) }.
  Lemma mild_trans a b d : mild a b -> mild b d -> mild a d.
  Proof using. intros [(A1 & A2 & A3) B1] [(A1' & A2' & A3') B2]. constructor; [repeat split; congruence|auto]. Qed.
  Lemma mild_set k x b w : mild (w_drv w) (w_drv (snd (set k x b w))).
  Proof using.
    destruct (set_spec k x b w) as [(y & r & t & _ & _ & _ & H & _)|(e & r & _ & H)]; rewrite H; [|constructor; auto].
    constructor; [destruct (w_drv w); auto|]; destruct (w_drv w); cbn; apply NoDup_dset.
  Qed.
  Definition drel (D : driver -> driver -> Prop) (w : world) (b : bool) (w' : world) : Prop := D (w_drv w) (w_drv w').
  Lemma set_contract_still name code o now dev w :
    still (w_drv w) (w_drv (snd (set_contract (l_marshal L) name code o now dev w))).
  Proof using K_code K_entries.
    destruct (str_eqb_spec name c) as [->|Hn].
    - assert (HM : mild (w_drv w) (w_drv (snd (set_contract (l_marshal L) c code o now dev w)))).
      { assert (HW : wt (drel mild) (do_act L (ActSetContract c code o now dev))).
        { assert (R : forall v, mild v v) by (constructor; auto).
          assert (S : forall n x, In n [CODE_KEY; COMPILED_KEY; OWNER_KEY; TIME_KEY; DEVELOPER_KEY] -> wt (drel mild) (set_var c n [] x)).
          { intros n x Hi w0. apply mild_set. }
          assert (B : forall A B (m : st world A) (k : A -> st world B), wt (drel mild) m -> (forall a, wt (drel mild) (k a)) -> wt (drel mild) (bind m k)).
          { intros A B. apply wt_bind. intros w0 b w1 w2. apply mild_trans. }
          cbn [do_act]. apply B; [|intros _ w0; apply R]. unfold set_contract. apply B.
          - intros w0. unfold on_drv. destruct (ro_get (make_key c CODE_KEY []) (w_drv w0)) as (x & Hx). unfold get_contract, get_var. destruct (get _ (w_drv w0)) as [r v]. cbn [fst snd] in *. subst v. cbn. constructor; auto.
          - intros x. destruct (is_none x); [|intros w0; apply R]. apply B; [intros w0; apply R|]. intros blob.
            repeat (apply B; [apply S; cbn [In]; auto 10|intros _]). apply S. cbn [In]. auto 10. }
        specialize (HW w). cbn [do_act] in HW. rewrite bind_eq in HW. destruct (set_contract (l_marshal L) c code o now dev w) as [[[]|e] w1]; exact HW. }
      destruct HM as [M1 M2]. constructor; [exact M1|exact M2|]. clear M1 M2. intros (x & Hx & HN) k Hk.
      unfold set_contract. rewrite bind_eq. unfold on_drv, get_contract, get_var, get. rewrite Hx.
      assert (E : is_none x = false) by (destruct x; [contradiction HN; reflexivity|reflexivity..]). rewrite E. cbn [snd ret w_drv].
      destruct (is_none (pget _ _)); reflexivity.
    - assert (R : forall w0, still (w_drv w0) (w_drv w0)) by (intros; apply still_refl).
      assert (S : forall n x, In n [CODE_KEY; COMPILED_KEY; OWNER_KEY; TIME_KEY; DEVELOPER_KEY] -> wt (drel still) (set_var name n [] x)).
      { intros n x Hi w0. apply still_set. intros Hk. apply K_entries in Hk. exact (Hn (entries_disjoint _ _ _ (entry_keys name n Hi) Hk)). }
      assert (B : forall A B (m : st world A) (k : A -> st world B), wt (drel still) m -> (forall a, wt (drel still) (k a)) -> wt (drel still) (bind m k)).
      { intros A B. apply wt_bind. intros w0 b w1 w2. apply still_trans. }
      assert (HW : wt (drel still) (set_contract (l_marshal L) name code o now dev)); [|exact (HW w)].
      unfold set_contract. apply B.
      + intros w0. unfold on_drv. destruct (ro_get (make_key name CODE_KEY []) (w_drv w0)) as (x & Hx). unfold get_contract, get_var. destruct (get _ (w_drv w0)) as [r v]. cbn [fst snd] in *. subst v. apply still_reads.
      + intros x. destruct (is_none x); [|intros w0; apply R]. apply B; [intros w0; apply R|]. intros blob.
        repeat (apply B; [apply S; cbn [In]; auto 10|intros _]). apply S. cbn [In]. auto 10.
  Qed.
  Lemma clear_still h args w : (forall k, startswith k (h_key h ++ u ":") = true -> ~ In k K) -> still (w_drv w) (w_drv (snd (hash_clear (l_ostr L) (l_ord L) h args w))).
  Proof using K_code Ord.
    intros HK. unfold hash_clear, hash_items. rewrite bind_eq. rewrite bind_eq. unfold lift. destruct (prefix_for_args (l_ostr L) h args) as [p|e] eqn:EP; [|apply still_refl].
    unfold on_drv. pose proof (ro_items (l_ord L) p (w_drv w)) as (x & Hx). destruct (items (l_ord L) p (w_drv w)) as [[i|e] v1] eqn:EI; cbn [snd] in Hx; subst v1; [|apply still_reads].
    assert (HI : forall k, In k (dkeys i) -> ~ In k K).
    { intros k Hk. apply HK. pose proof (items_prefix _ _ _ _ _ _ Ord EI Hk) as HS. unfold prefix_for_args in EP. destruct (validate_key _ _) as [m|]; [|discriminate]. cbn [bindr] in EP. injection EP as <-.
      apply startswith_spec in HS as (r & ->). apply startswith_spec. eexists. rewrite <- !app_assoc. reflexivity. }
    apply still_trans with (set_reads x (w_drv w)); [apply still_reads|]. set (w1 := mkW (set_reads x (w_drv w)) (w_rt w)). change (still (w_drv w1) (w_drv (snd (foreach delete (dkeys i) w1)))).
    clearbody w1. clear EI. revert w1. induction (dkeys i) as [|k l IH]; intros w1; cbn [foreach]; [apply still_refl|].
    rewrite bind_eq. assert (H1 : still (w_drv w1) (w_drv (snd (delete k w1)))) by (apply still_set, HI; left; reflexivity).
    destruct (delete k w1) as [[[]|e] w2]; cbn [snd] in *; [|exact H1]. eapply still_trans; [exact H1|]. apply IH. intros k' Hk'. apply HI. right. exact Hk'.
  Qed.
  Lemma act_still a w : leaves L K a -> still (w_drv w) (w_drv (snd (do_act L a w))).
  Proof using K_code K_entries Ord.
    intros HL. assert (HG : act_sets L (fun k _ => ~ In k K) a -> still (w_drv w) (w_drv (snd (do_act L a w)))).
    { intros HA. apply (do_act_rel L (fun k _ => ~ In k K) True (drel still)); auto; unfold drel.
      - intros; apply still_refl.
      - intros; eapply still_trans; eassumption.
      - intros; apply still_reads.
      - intros k v b w0 H1. apply still_set; assumption.
      - intros kl vl w0. unfold on_rt. destruct (deduct_write kl vl (w_rt w0)). apply still_refl.
      - intros _ e w0. apply still_same; reflexivity.
      - intros x w0 _. apply still_same; reflexivity. }
    destruct a; try (apply HG; exact HL).
    - cbn [do_act]. rewrite bind_eq. pose proof (clear_still h args w HL) as H. destruct (hash_clear (l_ostr L) (l_ord L) h args w) as [[[]|e] w1]; exact H.
    - cbn [do_act]. rewrite bind_eq. pose proof (set_contract_still name code owner now developer w) as H. destruct (set_contract (l_marshal L) name code owner now developer w) as [[[]|e] w1]; exact H.
  Qed.

  (** ** Through a whole transaction *)
  Definition MS (s : mach) (b : bool) (s' : mach) : Prop := still (s_drv s) (s_drv s').
  Variables (fuel : nat) (g : cfg) (t : txn).
  Hypothesis Auto : t_auto t = false.
  Hypothesis Fee : metered g t = true -> ~ In (balance_key g t) K.
  Lemma MS_glue s s1 b : glue s s1 -> MS s b s1.
  Proof using. intros [(x & H) _ _ _]. unfold MS. rewrite H. apply still_reads. Qed.
  Ltac go thm := eapply thm with (Q := code_leaves L K) (QM := module_all (code_leaves L K)) (Rel := MS);
    [ match goal with H : all_code _ _ _ |- _ => apply H end | match goal with H : all_code _ _ _ |- _ => apply H end
    | intros ? H; apply H | intros ??? H; apply H | intros ???? H; apply H
    | intros; apply still_refl | intros ???? H1 H2; eapply still_trans; eassumption | intros; apply MS_glue; assumption
    | intros ???? H1 H2; eapply still_trans; [exact H1|apply (MS_glue _ _ true H2)]
    | intros a0 k0 s0 HQ; unfold MS, act, on_w; pose proof (act_still a0 (s_w s0) HQ) as HX; destruct (do_act L a0 (s_w s0)) as [[?|?] ?]; exact HX
    | intros; unfold MS; rewrite line_drv; apply still_refl | intros; unfold MS; rewrite guard_drv; apply still_refl | .. ].
  Lemma prepare_still s : all_code (code_leaves L K) L s ->
    still (s_drv s) (s_drv (snd (prepare L fuel g t s))) /\ all_code (code_leaves L K) L (snd (prepare L fuel g t s)).
  Proof using K_code K_entries Ord.
    intros HA. pose (P := fun (s : mach) (b : bool) (s' : mach) => all_code (code_leaves L K) L s -> still (s_drv s) (s_drv s') /\ all_code (code_leaves L K) L s').
    assert (H : P s (is_ok (fst (prepare L fuel g t s))) (snd (prepare L fuel g t s))); [|apply H, HA].
    apply prepare_rel; unfold P; clear HA P.
    - intros; split; [apply still_refl|assumption].
    - intros x b y z A1 A2 A3. destruct (A1 A3) as [B1 B2]. destruct (A2 B2) as [C1 C2]. split; [eapply still_trans; eassumption|assumption].
    - intros x y b G EM EH _ [H1 H2]. split; [exact (MS_glue _ _ true G)|]. split; [exact H1|rewrite EM; exact H2].
    - intros x b e H. split; [apply still_same; reflexivity|exact H].
    - intros x HA. assert (H : MS x (is_ok (fst (plain_import L (deeper L fuel) Lib [] (t_contract t) x))) (snd (plain_import L (deeper L fuel) Lib [] (t_contract t) x)) /\
        mods_all (module_all (code_leaves L K)) (s_mods (snd (plain_import L (deeper L fuel) Lib [] (t_contract t) x)))) by (go import_rel; apply HA).
      split; [apply H|split; [apply HA|apply H]].
  Qed.
  Lemma call_still s kw : all_code (code_leaves L K) L s ->
    still (s_drv s) (s_drv (snd (entry_call L fuel t kw s))) /\ all_code (code_leaves L K) L (snd (entry_call L fuel t kw s)).
  Proof using K_code K_entries Ord.
    intros HA. unfold entry_call.
    assert (H : MS s (is_ok (fst (call L (deeper L fuel) [] (t_contract t) (t_function t) kw s))) (snd (call L (deeper L fuel) [] (t_contract t) (t_function t) kw s)) /\
      mods_all (module_all (code_leaves L K)) (s_mods (snd (call L (deeper L fuel) [] (t_contract t) (t_function t) kw s)))).
    { go call_rel; [|apply HA]. instantiate (1 := fun _ => PRet VNone). exact I. }
    split; [apply H|split; [apply HA|apply H]].
  Qed.
  Lemma phases_still s r s1 : all_code (code_leaves L K) L s -> phases L fuel g t s r s1 -> still (s_drv s) (s_drv s1) /\ all_code (code_leaves L K) L s1.
  Proof using K_code K_entries Ord Auto.
    intros HA HP. destruct (prepare_still s HA) as [P1 P2]. destruct HP as [e s' EP|kw sa e s' EP EC|kw sa v sb e s' EP EC A EA|kw sa v sb s' EP EC EA]; rewrite EP in P1, P2; cbn [fst snd] in *.
    - auto.
    - destruct (call_still (primed g t sa) kw P2) as [H1 H2]. rewrite EC in H1, H2. split; [eapply still_trans; [exact P1|exact H1]|exact H2].
    - congruence.
    - destruct (call_still (primed g t sa) kw P2) as [H1 H2]. rewrite EC in H1, H2. cbn [snd] in *. destruct (auto_same t sb _ _ EA) as (_ & _ & HM & _ & _ & HD).
      rewrite (HD Auto). split; [eapply still_trans; [exact P1|exact H1]|]. split; [apply H2|rewrite HM; apply H2].
  Qed.
  Lemma fee_still used w s : still (s_drv s) (s_drv (snd (charge_fee L g t used w s))).
  Proof using K_code Auto Fee.
    unfold charge_fee. destruct (metered g t) eqn:EM; [|apply still_refl]. pose proof (Fee eq_refl) as F1. rewrite bind_eq. unfold lift at 1.
    destruct (if Z.eqb (t_rate t) 0 then Err EDivisionByZero else cd_of_float (l_fdiv L used (t_rate t))) as [fee|e]; [|apply still_refl].
    rewrite bind_eq. unfold on_w at 1, on_drv at 1. destruct (ro_get (balance_key g t) (w_drv (s_w s))) as (x & Hx). destruct (get (balance_key g t) (w_drv (s_w s))) as [[bal|e] v1]; cbn [snd] in Hx; subst v1; [|apply still_reads].
    rewrite bind_eq. unfold lift at 1. destruct (minus_fee bal fee) as [y|e]; [|apply still_reads]. rewrite bind_eq. set (s1 := set_w _ s).
    assert (H1 : still (s_drv s) (s_drv s1)) by apply still_reads. assert (H2 : still (s_drv s1) (s_drv (snd (on_w (set (balance_key g t) (max0 y) false) s1)))).
    { unfold on_w. pose proof (still_set (balance_key g t) (max0 y) false (s_w s1) F1) as H. destruct (set (balance_key g t) (max0 y) false (s_w s1)). exact H. }
    destruct (on_w (set (balance_key g t) (max0 y) false) s1) as [[[]|e] s2]; cbn [snd] in *; [|exact (still_trans _ _ _ H1 H2)]. rewrite Auto. exact (still_trans _ _ _ H1 H2).
  Qed.
  Lemma filter_mods_all QM f (d : dict (option modul)) : mods_all QM d -> mods_all QM (filter (fun kv => f (fst kv)) d).
  Proof using. intros H n md E. apply (H n md). clear H. induction d as [|[k x] d IH]; cbn [filter dget fst] in *; [discriminate|].
    destruct (f k) eqn:Ef; cbn [dget] in E; [destruct (str_eqb n k); auto|].
    destruct (str_eqb_spec n k) as [->|]; [|auto]. exfalso. clear IH. induction d as [|[k2 z] d IH]; cbn [filter dget fst] in E; [discriminate|].
    destruct (f k2) eqn:E2; cbn [dget] in E; [|auto]. destruct (str_eqb_spec k k2) as [->|]; [congruence|auto].
  Qed.
  Lemma fee_mods used w s : s_mods (snd (charge_fee L g t used w s)) = s_mods s.
  Proof using.
    clear Fee Auto. unfold charge_fee. destruct (metered g t); [|reflexivity]. rewrite bind_eq. unfold lift at 1. destruct (if Z.eqb (t_rate t) 0 then Err EDivisionByZero else cd_of_float (l_fdiv L used (t_rate t))) as [fee|e]; [|reflexivity].
    rewrite bind_eq. pose proof (on_w_mods (on_drv (get (balance_key g t))) s) as H1. destruct (on_w (on_drv (get (balance_key g t))) s) as [[bal|e] s1]; cbn [snd] in *; [|exact H1].
    rewrite bind_eq. unfold lift at 1. destruct (minus_fee bal fee) as [x|e]; [|exact H1]. rewrite bind_eq.
    pose proof (on_w_mods (set (balance_key g t) (max0 x) false) s1) as H2. destruct (on_w (set (balance_key g t) (max0 x) false) s1) as [[[]|e] s2]; cbn [snd] in *; [|rewrite H2; exact H1].
    rewrite bind_eq. destruct (t_auto t); [|cbn [ret snd]; rewrite H2; exact H1].
    pose proof (on_w_mods (on_drv commit) s2) as H3. destruct (on_w (on_drv commit) s2) as [[[]|e] s3]; cbn [snd ret] in *; rewrite H3, H2; exact H1.
  Qed.
  Theorem execute_still s r s' : all_code (code_leaves L K) L s -> execute L fuel g t s = (r, s') -> still (s_drv s) (s_drv s') /\ all_code (code_leaves L K) L s'.
  Proof using K_code K_entries Ord Auto Fee.
    intros HA HE. unfold execute in HE. change (upd_d (fun v => clear_events (clear_transaction_writes v)) (fresh_log s)) with (began s) in HE.
    assert (HB : still (s_drv s) (s_drv (began s))) by (apply still_same; reflexivity). destruct (refused g t); [injection HE as _ <-; split; [exact HB|exact HA]|].
    unfold transact in HE. destruct (attempt L fuel g t (began s)) as [x s1] eqn:EA. apply attempt_phases in EA. assert (HA' : all_code (code_leaves L K) L (began s)) by exact HA.
    destruct (phases_still (began s) x s1 HA' EA) as [H1 HA1]. assert (H2 : still (s_drv s) (s_drv s1)) by exact (still_trans _ _ _ HB H1). clear H1.
    set (saved := dv_writes (s_drv (fresh_log s))) in HE.
    assert (HF : forall used w s0 out, still (s_drv s) (s_drv s0) -> s_mods s0 = s_mods s1 -> (match charge_fee L g t used w s0 with (Err e, y) => (Err e, y) | (Ok writes, y) => (@Ok output (out writes y), wind_up y) end) = (r, s') -> still (s_drv s) (s_drv s') /\ all_code (code_leaves L K) L s').
    { intros used w s0 out G GM E. pose proof (fee_still used w s0) as G1. pose proof (fee_mods used w s0) as G2. rewrite GM in G2. destruct (charge_fee L g t used w s0) as [[w'|e] y]; cbn [snd] in *; injection E as <- <-; (split; [exact (still_trans _ _ _ G G1)|split; [apply HA|]]).
      - unfold wind_up. cbn [s_mods set_restricted set_mods]. rewrite G2. apply (filter_mods_all _ (fun k => negb (str_mem k (rt_loaded (s_rt y))))), HA1.
      - rewrite G2. apply HA1. }
    destruct x as [[[v w] ev]|e].
    - refine (HF _ _ (finally s1) _ _ eq_refl HE). eapply still_trans; [exact H2|apply still_same; reflexivity].
    - assert (HR : still (s_drv s) (s_drv (finally (revert t saved s1)))).
      { unfold revert. rewrite Auto. destruct H2 as [(A1 & A2 & A3) _ _]. apply still_same; [exact A1|exact A2|exact A3|reflexivity]. }
      assert (HE' : e <> EBase -> (match charge_fee L g t (stamps_used t (finally (revert t saved s1))) [] (finally (revert t saved s1)) with (Err e, y) => (Err e, y) | (Ok writes, y) => (@Ok output ((fun writes y => mkOut 1 (Err e) (stamps_used t (finally (revert t saved s1))) writes (dv_reads (s_drv y)) []) writes y), wind_up y) end) = (r, s')) by (intros NE; destruct e; try exact HE; exfalso; apply NE; reflexivity).
      destruct e; try (refine (HF _ _ (finally (revert t saved s1)) _ HR eq_refl (HE' _)); discriminate).
      injection HE as <- <-. split; [|exact HA1]. eapply still_trans; [exact H2|apply still_same; reflexivity].
  Qed.
End Still.

(** ** Calls of the submission contract *)
Lemma enter_context c s s1 : enter c s = (Ok tt, s1) -> (List.length (cx_stack (s_ctx s)) < RECURSION_LIMIT)%nat ->
  c_caller (get_state (s_ctx s1)) = caller_in s c /\ c_signer (get_state (s_ctx s1)) = signer_of s.
Proof.
  intros H HL. unfold enter in H. rewrite bind_eq in H. cbn [gets] in H. unfold caller_in, signer_of.
  destruct (context_changed (s_ctx s) c) eqn:CC.
  - rewrite bind_eq in H. unfold on_w, on_drv in H. destruct (get_owner c (w_drv (s_w s))) as [[o|e] v1]; [|discriminate].
    rewrite bind_eq in H. cbn [gets] in H. rewrite bind_eq in H. cbn [modify] in H.
    set (s0 := set_w (mkW v1 (w_rt (s_w s))) s) in H. change (s_ctx s0) with (s_ctx s) in H.
    set (cs := mkCs _ _ _ _ _ _) in H. assert (E : s1 = upd_ctx (add_state RECURSION_LIMIT cs) s0) by (destruct (is_none o || is_owner o (c_this (get_state (s_ctx s))))%bool; [injection H as <-; reflexivity|discriminate]).
    assert (EC : s_ctx s1 = add_state RECURSION_LIMIT cs (s_ctx s)) by (rewrite E; reflexivity).
    unfold add_state in EC. cbn [c_this cs] in EC. rewrite CC in EC. cbn [andb] in EC. destruct (Nat.ltb_spec (List.length (cx_stack (s_ctx s))) RECURSION_LIMIT); [|lia].
    rewrite EC. unfold context_changed in CC. destruct (ostr_eqb _ _); [discriminate CC|]. split; reflexivity.
  - cbn [modify] in H. injection H as <-. change (s_ctx (upd_ctx ins_state s)) with (ins_state (s_ctx s)). unfold context_changed in CC. destruct (ostr_eqb _ _); [|discriminate CC].
    unfold ins_state, get_state. destruct (cx_stack (s_ctx s)) as [|[cs d] r] eqn:E; [rewrite E|]; split; reflexivity.
Qed.
Lemma enter_drv c s : exists x, s_drv (snd (enter c s)) = set_reads x (s_drv s).
Proof. destruct (enter_glue c s) as [[H _ _ _] _]. exact H. Qed.
(** a stored contract is read back *)
Lemma set_contract_stored compile n code o now dev w w' : dv_bypass (w_drv w) = false -> set_contract compile n code o now dev w = (Ok tt, w') ->
  exists x, find (make_key n CODE_KEY []) (w_drv w') = Ok x /\ x <> VNone.
Proof.
  intros HB H. unfold set_contract in H. rewrite bind_eq in H. unfold on_drv in H. unfold get_contract, get_var in H.
  pose proof (get_result (make_key n CODE_KEY []) (w_drv w)) as HF. destruct (ro_get (make_key n CODE_KEY []) (w_drv w)) as (x0 & HR).
  destruct (get (make_key n CODE_KEY []) (w_drv w)) as [[c|e] v1]; cbn [fst snd] in *; [|discriminate]. subst v1.
  destruct (is_none c) eqn:EN.
  - rewrite bind_eq in H. unfold lift in H. destruct (compile code) as [blob|e]; [|discriminate].
    assert (HS : forall k k' y w1 w2, k <> k' -> set k' y false w1 = (Ok tt, w2) -> dget k (dv_writes (w_drv w2)) = dget k (dv_writes (w_drv w1)) /\ dv_bypass (w_drv w2) = dv_bypass (w_drv w1)).
    { intros k k' y w1 w2 Hk E. destruct (set_spec k' y false w1) as [(z & r & t & _ & _ & _ & E' & _)|(e & r & E' & _)]; rewrite E in E'; cbn [fst snd] in E'; [|discriminate].
      rewrite E'. cbn. rewrite dget_dset. destruct (str_eqb_spec k k'); [contradiction|auto]. }
    assert (HN : forall m, In m [COMPILED_KEY; OWNER_KEY; TIME_KEY; DEVELOPER_KEY] -> make_key n CODE_KEY [] <> make_key n m []).
    { intros m Hm E. change (make_key n CODE_KEY []) with (n ++ (DOT :: CODE_KEY)) in E. change (make_key n m []) with (n ++ (DOT :: m)) in E. apply app_inv_head in E. assert (E' : CODE_KEY = m) by congruence. subst m. destruct Hm as [X|[X|[X|[X|[]]]]]; vm_compute in X; discriminate X. }
    unfold set_var in H. rewrite bind_eq in H. set (w1 := mkW _ (w_rt w)) in H. assert (HB1 : dv_bypass (w_drv w1) = false) by exact HB. clearbody w1.
    destruct (set_spec (make_key n CODE_KEY []) (VStr code) false w1) as [(z & r & t & HC & _ & E1 & E2 & _)|(e & r & E1 & _)].
    2:{ destruct (set (make_key n CODE_KEY []) (VStr code) false w1) as [[[]|?] ?]; cbn [fst] in E1; discriminate. }
    cbn [coerce] in HC. injection HC as <-. rewrite E1 in H. set (w2 := snd (set _ _ _ w1)) in *.
    assert (G : dget (make_key n CODE_KEY []) (dv_writes (w_drv w2)) = Some (VStr code) /\ dv_bypass (w_drv w2) = false).
    { rewrite E2. cbn [dv_writes dv_bypass set_txn set_writes set_reads]. rewrite dget_dset. destruct (str_eqb_spec (make_key n CODE_KEY []) (make_key n CODE_KEY [])); [split; [reflexivity|exact HB1]|congruence]. }
    clearbody w2. clear E1 E2.
    assert (STEP : forall m y wa wb, In m [COMPILED_KEY; OWNER_KEY; TIME_KEY; DEVELOPER_KEY] -> dget (make_key n CODE_KEY []) (dv_writes (w_drv wa)) = Some (VStr code) /\ dv_bypass (w_drv wa) = false ->
      set (make_key n m []) y false wa = (Ok tt, wb) -> dget (make_key n CODE_KEY []) (dv_writes (w_drv wb)) = Some (VStr code) /\ dv_bypass (w_drv wb) = false).
    { intros m y wa wb Hm [A B] E. destruct (HS _ _ _ _ _ (HN m Hm) E) as [-> ->]. auto. }
    rewrite bind_eq in H. destruct (set (make_key n COMPILED_KEY []) (VBytes blob) false w2) as [[[]|?] w3] eqn:E3; [|discriminate]. apply STEP in E3; [|cbn [In]; auto|exact G].
    rewrite bind_eq in H. destruct (set (make_key n OWNER_KEY []) o false w3) as [[[]|?] w4] eqn:E4; [|discriminate]. apply STEP in E4; [|cbn [In]; auto|exact E3].
    rewrite bind_eq in H. destruct (set (make_key n TIME_KEY []) now false w4) as [[[]|?] w5] eqn:E5; [|discriminate]. apply STEP in E5; [|cbn [In]; auto|exact E4].
    apply STEP in H; [|cbn [In]; auto|exact E5]. exists (VStr code). split; [|discriminate]. apply find_pending; [apply H|apply H|discriminate].
  - cbn [ret] in H. injection H as <-. exists c. cbn [w_drv]. rewrite find_set_reads. split; [symmetry; exact HF|]. intros ->. discriminate.
Qed.
(** the driver's base (cache, disk, bypass) stays *)
Definition based (v v' : driver) : Prop := dv_cache v' = dv_cache v /\ dv_disk v' = dv_disk v /\ dv_bypass v' = dv_bypass v.
Lemma run_based L fuel ch p s : based (s_drv s) (s_drv (snd (run L fuel ch p s))).
Proof.
  refine (proj1 (run_D L (fun _ _ => True) based _ _ _ _ _ fuel ch p s (all_sets_any L s) _)).
  - repeat split.
  - intros a b c (A1 & A2 & A3) (B1 & B2 & B3). repeat split; congruence.
  - repeat split.
  - intros k x y b v _ _ _. destruct b, v; repeat split.
  - repeat split.
  - induction p; cbn [each]; (split; [try exact I; cbn; try apply act_sets_any|]); auto; try exact I.
Qed.
Lemma exec_based L fuel ch n code args s : based (s_drv s) (s_drv (snd (exec_code L (deeper L fuel) ch n code args s))).
Proof.
  pose proof (run_based L fuel ch (PExec n code args PRet) s) as H.
  assert (E : snd (run L fuel ch (PExec n code args PRet) s) = snd (exec_code L (deeper L fuel) ch n code args s)).
  { assert (E : run L fuel ch (PExec n code args PRet) s = bind (exec_code L (deeper L fuel) ch n code args) (fun v => ret v) s) by (destruct fuel; reflexivity).
    rewrite E, bind_eq. destruct (exec_code _ _ _ _ _ _ s) as [[v|e] s1]; reflexivity. }
  rewrite E in H. exact H.
Qed.
Lemma run_eq L fuel ch p : run L fuel ch p = go L (deeper L fuel) ch p.
Proof. destruct fuel; reflexivity. Qed.
Lemma submit_body_inv L fuel ch name code owner args s v s' : dv_bypass (s_drv s) = false ->
  run L fuel ch (submit_contract_body L name code owner args) s = (Ok v, s') ->
  let cs := get_state (s_ctx s) in
  (c_caller cs = Some (u "sys") \/ startswith name (u "con_") = true) /\ c_caller cs = c_signer cs /\ (List.length name <= 64)%nat /\ l_islower L name = true /\
  find (make_key name CODE_KEY []) (s_drv s) = Ok VNone /\ present name (s_drv s').
Proof.
  intros HB H. rewrite run_eq in H. unfold submit_contract_body in H. cbn [go] in H. rewrite bind_eq in H. cbn [gets] in H. cbv zeta.
  set (cs := get_state (s_ctx s)) in *. clearbody cs.
  assert (OE : forall a b, ostr_eqb a b = true -> a = b).
  { intros [a|] [b|]; cbn; try discriminate; [|reflexivity]. destruct (str_eqb_spec a b); congruence. }
  destruct (negb (ostr_eqb (c_caller cs) (Some (u "sys"))) && negb (startswith name (u "con_")))%bool eqn:E1; [discriminate|].
  destruct (ostr_eqb (c_caller cs) (c_signer cs)) eqn:E2; cbn [negb] in H; [|discriminate].
  destruct (Nat.leb (List.length name) 64) eqn:E3; cbn [negb] in H; [|discriminate].
  destruct (l_islower L name) eqn:E4; cbn [negb] in H; [|discriminate].
  split. { apply Bool.andb_false_iff in E1 as [E1|E1]; apply Bool.negb_false_iff in E1; [left; apply OE, E1|right; exact E1]. }
  split; [apply OE, E2|]. split; [apply Nat.leb_le, E3|]. split; [reflexivity|].
  unfold submit_prog in H. cbn [go] in H. rewrite bind_eq in H. unfold act, on_w in H. cbn [do_act] in H. unfold on_drv, get_var in H.
  pose proof (get_result (make_key name CODE_KEY []) (w_drv (s_w s))) as HF. destruct (ro_get (make_key name CODE_KEY []) (w_drv (s_w s))) as (x0 & HR).
  destruct (get (make_key name CODE_KEY []) (w_drv (s_w s))) as [[c|e] v1]; cbn [fst snd] in *; [|discriminate].
  destruct (is_none c) eqn:EN; cbn [negb] in H; [|cbn [go raise] in H; discriminate]. assert (c = VNone) as -> by (destruct c; [reflexivity|discriminate EN..]).
  split; [symmetry; exact HF|]. cbn [go] in H. rewrite bind_eq in H. set (s1 := note _ _) in H.
  assert (HB1 : dv_bypass (s_drv s1) = false) by (unfold s1, s_drv; cbn; rewrite HR; exact HB). clearbody s1.
  pose proof (exec_based L fuel ch name code args s1) as (_ & _ & HB2). destruct (exec_code _ _ _ _ _ _ s1) as [[now|e] s2]; [|discriminate]. cbn [snd] in HB2. rewrite HB1 in HB2.
  destruct (l_compile L name code) as [text|e]; [|discriminate]. cbn [go] in H. rewrite bind_eq in H. unfold act, on_w in H. cbn [do_act] in H. rewrite bind_eq in H.
  destruct (set_contract (l_marshal L) name text owner (if is_none now then l_boot L else now) (of_name (c_caller cs)) (s_w s2)) as [[[]|e] w3] eqn:E5; [|discriminate].
  cbn [ret go] in H. injection H as _ <-. apply set_contract_stored in E5; [|exact HB2]. exact E5.
Qed.
