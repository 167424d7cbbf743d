(** * Transactions keep the pending writes committable *)
From Verif Require Import Model.Base Model.State Model.Dec Model.Time Model.Value Model.Encoder Model.Hdf5 Model.Runtime Model.Driver Model.Orm Model.Exec Model.Executor.
From Verif Require Import Spec.OrmSpec Spec.DriverSpec Spec.ExecSpec Spec.SubmitSpec Proofs.BaseFacts Proofs.DriverFacts Proofs.OrmFacts Proofs.ExecFacts Proofs.ExecRel Proofs.MeterFacts Proofs.TxFacts Proofs.DrvRel Proofs.PhaseRel Proofs.SubmitFacts.
From Verif Require Import Properties.TxProps.
From Coq Require Import Lia.
Local Open Scope nat_scope.

Section Commit.
  Variable L : lang.
  Hypothesis Ord : set_order (l_ord L).
  Lemma keeps_refl v : keeps v v. Proof. split; auto. Qed.
  Lemma keeps_trans a b c : keeps a b -> keeps b c -> keeps a c. Proof. intros [X1 X2] [Y1 Y2]; split; [congruence|auto]. Qed.
  Lemma keeps_reads x v : keeps v (set_reads x v). Proof. split; auto. Qed.
  Lemma keeps_w k x b w : key_writable k -> keeps (w_drv w) (w_drv (snd (set k x b w))).
  Proof.
    intros HK. destruct (set_spec k x b w) as [(y & r & t & HC & HE & _ & H & Ht)|(e & r & _ & H)]; rewrite H; [|apply keeps_reads].
    eapply keeps_trans; [apply (keeps_reads r)|]. subst t. pose proof (keeps_set k x y b (set_reads r (w_drv w)) HK HC HE) as X. destruct (w_drv w); exact X.
  Qed.
  Lemma clear_keeps h args w : (forall k, startswith k (h_key h ++ u ":") = true -> key_writable k) -> keeps (w_drv w) (w_drv (snd (hash_clear (l_ostr L) (l_ord L) h args w))).
  Proof using Ord.
    intros HK. unfold hash_clear, hash_items. rewrite bind_eq. rewrite bind_eq. unfold lift. destruct (prefix_for_args (l_ostr L) h args) as [p|e] eqn:EP; [|apply keeps_refl].
    unfold on_drv. pose proof (ro_items (l_ord L) p (w_drv w)) as (x & Hx). destruct (items (l_ord L) p (w_drv w)) as [[i|e] v1] eqn:EI; cbn [snd] in Hx; subst v1; [|apply keeps_reads].
    assert (HI : forall k, In k (dkeys i) -> key_writable k).
    { intros k Hk. apply HK. pose proof (items_prefix _ _ _ _ _ _ Ord EI Hk) as HS. unfold prefix_for_args in EP. destruct (validate_key _ _) as [m|]; [|discriminate]. cbn [bindr] in EP. injection EP as <-.
      apply startswith_spec in HS as (r & ->). apply startswith_spec. eexists. rewrite <- !app_assoc. reflexivity. }
    apply keeps_trans with (set_reads x (w_drv w)); [apply keeps_reads|]. set (w1 := mkW (set_reads x (w_drv w)) (w_rt w)). change (keeps (w_drv w1) (w_drv (snd (foreach delete (dkeys i) w1)))).
    clearbody w1. clear EI. revert w1. induction (dkeys i) as [|k l IH]; intros w1; cbn [foreach]; [apply keeps_refl|].
    rewrite bind_eq. assert (H1 : keeps (w_drv w1) (w_drv (snd (delete k w1)))) by (apply keeps_w, HI; left; reflexivity).
    destruct (delete k w1) as [[[]|e] w2]; cbn [snd] in *; [|exact H1]. eapply keeps_trans; [exact H1|]. apply IH. intros k' Hk'. apply HI. right. exact Hk'.
  Qed.
  (** an action *)
  Lemma act_keeps a k s : code_storable L (PAct a k) -> names_storable [OAct (get_state (s_ctx s)) a] -> keeps (s_drv s) (s_drv (snd (act L a s))).
  Proof using Ord.
    intros HQ HN. inversion HN as [|o l HO _]; subst.
    assert (HD : act_sets L (fun k _ => key_writable k) a -> keeps (s_drv s) (s_drv (snd (act L a s)))).
    { intros HA. refine (MD_act L (fun k _ => key_writable k) keeps keeps_refl keeps_trans keeps_reads _ _ a k s HA).
      - intros k0 x y b v A1 A2 A3. exact (keeps_set k0 x y b v A1 A2 A3).
      - intros e v. split; auto. }
    destruct a as [x|x v|h k0|h k0 v|h l|h l|e p d|salt|d|c n|c n v|nm code o now dev]; try (apply HD; exact I); try (apply HD; exact HQ); try (apply HD; exact HO).
    - unfold act, on_w. cbn [do_act]. rewrite bind_eq. pose proof (clear_keeps h l (s_w s) HQ) as H. destruct (hash_clear _ _ h l (s_w s)) as [[[]|e] w']; exact H.
    - apply HD. cbn [act_sets]. intros n Hn. apply HO, entry_keys, Hn.
  Qed.
  Definition CR (s : mach) (b : bool) (s' : mach) : Prop :=
    exists l, s_log s' = s_log s ++ l /\ (b = true -> names_storable l -> committable (s_drv s) -> committable (s_drv s')).
  Lemma CR_same s s' b : s_log s' = s_log s -> dv_writes (s_drv s') = dv_writes (s_drv s) -> CR s b s'.
  Proof. intros H1 H2. exists []. rewrite app_nil_r. split; [exact H1|]. intros _ _. unfold committable. rewrite H2. auto. Qed.
  Lemma CR_trans s b s1 s2 : CR s true s1 -> CR s1 b s2 -> CR s b s2.
  Proof.
    intros (l & L1 & H1) (l' & L2 & H2). exists (l ++ l'). rewrite L2, L1, app_assoc. split; [reflexivity|].
    intros Hb HN HC. unfold names_storable in *. apply Forall_app in HN as [N1 N2]. auto.
  Qed.
  Lemma CR_glue s s1 b : glue s s1 -> CR s b s1.
  Proof. intros [(x & HD) _ _ (l & HL & _)]. exists l. split; [exact HL|]. intros _ _. unfold committable. rewrite HD. auto. Qed.
  Lemma CR_after s b s1 s2 : CR s b s1 -> glue s1 s2 -> CR s b s2.
  Proof.
    intros (l & L1 & H1) [(x & HD) _ _ (l' & HL & _)]. exists (l ++ l'). rewrite HL, L1, app_assoc. split; [reflexivity|].
    intros Hb HN HC. unfold names_storable in *. apply Forall_app in HN as [N1 N2]. unfold committable. rewrite HD. apply H1; assumption.
  Qed.
  Lemma CR_act a k s : code_storable L (PAct a k) -> CR s (is_ok (fst (act L a s))) (snd (act L a s)).
  Proof using Ord.
    intros HQ. pose proof (act_keeps a k s HQ) as H. unfold act in *. unfold on_w in *. destruct (do_act L a (s_w s)) as [[v|e] w']; cbn [fst snd is_ok] in *.
    - exists [OAct (get_state (s_ctx s)) a]. split; [reflexivity|]. intros _ HN HC. destruct (H HN) as [_ K]. apply K, HC.
    - exists []. rewrite app_nil_r. split; [reflexivity|]. discriminate.
  Qed.
  Lemma CR_line e s b : CR s b (snd (line e s)).
  Proof.
    exists [OLine e]. split; [unfold line, on_w, on_rt; cbn [s_w note set_log]; destruct (on_tracer (on_line e) (w_rt (s_w s))); reflexivity|].
    intros _ _. unfold committable. rewrite line_drv. auto.
  Qed.
  Lemma CR_lines ls : forall s, CR s true (snd (foreach line ls s)).
  Proof.
    induction ls as [|e ls IH]; intros s; cbn [foreach]; [apply CR_same; reflexivity|]. rewrite bind_eq. pose proof (CR_line e s true) as H. destruct (line e s) as [[x|x] s1]; cbn [snd] in *; [|exact H].
    eapply CR_trans; [exact H|apply IH].
  Qed.
  Lemma CR_guard ls s : CR s true (snd (guard ls s)).
  Proof. pose proof (CR_lines ls s) as H. unfold guard. destruct (foreach line ls s) as [[x|x] s1]; exact H. Qed.
  Variables (fuel : nat) (g : cfg) (t : txn).
  Hypothesis Auto : t_auto t = false.
  Hypothesis Fee : metered g t = true -> key_writable (balance_key g t).
  Lemma fee_keeps used w s : keeps (s_drv s) (s_drv (snd (charge_fee L g t used w s))).
  Proof using Auto Fee.
    unfold charge_fee. destruct (metered g t) eqn:EM; [|apply keeps_refl]. pose proof (Fee eq_refl) as F1. rewrite bind_eq. unfold lift at 1.
    destruct (if Z.eqb (t_rate t) 0 then Err EDivisionByZero else cd_of_float (l_fdiv L used (t_rate t))) as [fee|e]; [|apply keeps_refl].
    rewrite bind_eq. unfold on_w at 1, on_drv at 1. destruct (ro_get (balance_key g t) (w_drv (s_w s))) as (x & Hx). destruct (get (balance_key g t) (w_drv (s_w s))) as [[bal|e] v1]; cbn [snd] in Hx; subst v1; [|apply keeps_reads].
    rewrite bind_eq. unfold lift at 1. destruct (minus_fee bal fee) as [y|e]; [|apply keeps_reads]. rewrite bind_eq. set (s1 := set_w _ s).
    assert (H1 : keeps (s_drv s) (s_drv s1)) by apply keeps_reads. assert (H2 : keeps (s_drv s1) (s_drv (snd (on_w (set (balance_key g t) (max0 y) false) s1)))).
    { unfold on_w. pose proof (keeps_w (balance_key g t) (max0 y) false (s_w s1) F1) as H. destruct (set (balance_key g t) (max0 y) false (s_w s1)). exact H. }
    destruct (on_w (set (balance_key g t) (max0 y) false) s1) as [[[]|e] s2]; cbn [snd] in *; [|exact (keeps_trans _ _ _ H1 H2)]. rewrite Auto. exact (keeps_trans _ _ _ H1 H2).
  Qed.
  Theorem execute_committable s out s' : all_code (code_storable L) L s -> committable (s_drv s) -> execute L fuel g t s = (Ok out, s') -> names_storable (s_log s') -> committable (s_drv s').
  Proof using Ord Auto Fee.
    intros HA HC HE HN. apply execute_inv in HE as (_ & r & s1 & w & s3 & HP & _ & HF & -> & _).
    assert (K1 : committable (s_drv (restore t (dv_writes (s_drv s)) r s1))).
    { destruct r as [p|e].
      2:{ unfold restore, revert. rewrite Auto. exact HC. }
      assert (HL : s_log (wind_up s3) = s_log s1).
      { pose proof (fee_same L g t (stamps_used t (restore t (dv_writes (s_drv s)) (Ok p) s1)) (written (Ok p)) (restore t (dv_writes (s_drv s)) (Ok p) s1)) as [E _]. rewrite HF in E. exact E. }
      rewrite HL in HN. clear HL HF. change (committable (s_drv s1)).
      assert (HB : all_code (code_storable L) L (began s)) by exact HA.
      pose proof (prepare_R L (code_storable L) CR (fun s b => CR_same s s b eq_refl eq_refl) CR_trans CR_glue CR_after CR_act (fun e k s _ => CR_line e s _) (fun ls ok k s _ => CR_guard ls s) fuel g t
        (fun s b e => CR_same _ _ b eq_refl eq_refl) (fun s => CR_same _ _ true eq_refl eq_refl) (fun args => ex_intro _ (fun _ => PRet VNone) I) (began s) HB) as [P1 P2].
      inversion HP as [e0 sa Ea X1|kw sa e0 sb Ea Eb X1|kw sa v sb e0 sc Ea Eb A' Ec X1|kw sa v sb sc Ea Eb Ec X1]; subst.
      rewrite Ea in P1, P2. cbn [fst snd is_ok] in *.
      pose proof (call_R L (code_storable L) CR (fun s b => CR_same s s b eq_refl eq_refl) CR_trans CR_glue CR_after CR_act (fun e k s _ => CR_line e s _) (fun ls ok k s _ => CR_guard ls s) fuel g t
        (fun s b e => CR_same _ _ b eq_refl eq_refl) (fun s => CR_same _ _ true eq_refl eq_refl) (fun args => ex_intro _ (fun _ => PRet VNone) I) (primed g t sa) kw P2) as C1.
      rewrite Eb in C1. cbn [fst snd is_ok] in C1. destruct (auto_same t sb _ _ Ec) as (EL & _ & _ & _ & _ & ED). specialize (ED Auto).
      assert (C0 : CR (began s) true sb) by (eapply CR_trans; [exact P1|]; eapply CR_trans; [apply (CR_same sa (primed g t sa)); reflexivity|exact C1]).
      destruct C0 as (l & L0 & K0). rewrite ED. apply K0; [reflexivity| |exact HC]. rewrite EL, L0 in HN. exact HN. }
    pose proof (fee_keeps (stamps_used t (restore t (dv_writes (s_drv s)) r s1)) (written r) (restore t (dv_writes (s_drv s)) r s1)) as [_ K]. rewrite HF in K. cbn [snd] in K. apply K, K1.
  Qed.
End Commit.

(** ** Contract names *)
Definition cut (c : N) (s : pystr) : pystr := match split1 c s with Some (a, _) => a | None => s end.
Lemma cut_prefix c s : exists r, s = cut c s ++ r.
Proof. unfold cut. destruct (split1 c s) as [[a b]|] eqn:E; [apply split1_Some in E as [-> _]; eexists; reflexivity|exists []; rewrite app_nil_r; reflexivity]. Qed.
Lemma cut_starts c s p : ~ In c p -> startswith s p = true -> startswith (cut c s) p = true.
Proof.
  intros HP HS. apply startswith_spec in HS as (q & HQ). unfold cut. destruct (split1 c s) as [[a b]|] eqn:E.
  - apply split1_Some in E as [E Ha]. rewrite E in HQ. apply app_eq_app in HQ as (l & [[H1 H2]|[H1 H2]]).
    + rewrite H1. apply startswith_app.
    + destruct l as [|x l]; [rewrite app_nil_r in H1; rewrite H1, <- (app_nil_r a) at 1; apply startswith_app|].
      cbn [app] in H2. injection H2 as H2 _. exfalso. apply HP. rewrite H1. apply in_or_app. right. left. symmetry. exact H2.
  - rewrite HQ. apply startswith_app.
Qed.
Lemma utf8_prefix a r : existsb is_surrogate (a ++ r) = false -> exists n, utf8_len a = Ok n /\ n <= 4 * List.length a.
Proof.
  rewrite existsb_app. intros H. apply Bool.orb_false_iff in H as [H _]. unfold utf8_len. rewrite H. eexists. split; [reflexivity|].
  clear H. induction a as [|x a IH]; [auto|]. cbn [fold_right List.length]. assert (utf8_char_len x <= 4) by (unfold utf8_char_len; repeat (destruct (N.ltb _ _); [repeat constructor|]); repeat constructor). lia.
Qed.
Lemma con_names n : startswith n (u "con_") = true -> List.length n <= 64 -> ~ In SLASH n -> existsb is_surrogate n = false -> storable_name n.
Proof.
  intros HS HL HN HU k Hk.
  assert (HX : exists e, k = n ++ ch "." :: e /\ e <> []).
  { cbn [contract_entries In] in Hk. destruct Hk as [<-|[<-|[<-|[<-|[<-|[]]]]]]; [exists (u "__code__")|exists (u "__compiled__")|exists (u "__owner__")|exists (u "__submitted__")|exists (u "__developer__")]; (split; [reflexivity|discriminate]). }
  destruct HX as (e & -> & He).
  assert (HP : exists p0 rest, split1 (ch ".") (n ++ ch "." :: e) = Some (p0, rest) /\ rest <> [] /\ p0 = cut (ch ".") n).
  { unfold cut. destruct (split1 (ch ".") n) as [[a b]|] eqn:E.
    - apply split1_Some in E as [E Ha]. exists a, (b ++ ch "." :: e). rewrite E, <- app_assoc. cbn [app]. rewrite split1_app by exact Ha. repeat split. destruct b; discriminate.
    - apply split1_None in E. exists n, e. rewrite split1_app by exact E. repeat split. exact He. }
  destruct HP as (p0 & rest & E1 & E2 & E3). unfold key_writable, key_ok, parse_key. rewrite E1. cbn [fst snd]. fold (cut (ch ":") p0). split.
  - destruct rest; [contradiction|]. discriminate.
  - subst p0. set (f := cut (ch ":") (cut (ch ".") n)).
    assert (F1 : exists r, n = f ++ r).
    { destruct (cut_prefix (ch ".") n) as (r1 & R1). destruct (cut_prefix (ch ":") (cut (ch ".") n)) as (r2 & R2). exists (r2 ++ r1). unfold f. rewrite app_assoc, <- R2. exact R1. }
    assert (F2 : startswith f (u "con_") = true).
    { unfold f. apply cut_starts; [vm_compute; intuition discriminate|]. apply cut_starts; [vm_compute; intuition discriminate|exact HS]. }
    clearbody f. apply startswith_spec in F2 as (q & F2). destruct F1 as (r & F1).
    assert (A1 : str_eqb f [] = false) by (rewrite F2; reflexivity).
    assert (A2 : has_char SLASH f = false) by (apply has_char_false; intros Hi; apply HN; rewrite F1; apply in_or_app; left; exact Hi).
    assert (LQ : List.length n = 4 + List.length q + List.length r) by (rewrite F1, F2, !app_length; reflexivity).
    rewrite F1, F2, <- app_assoc, existsb_app in HU. apply Bool.orb_false_iff in HU as [HU0 HU]. destruct (utf8_prefix q r HU) as (m & HM & HB).
    assert (UF : utf8_len f = Ok (4 + m)).
    { rewrite F2. unfold utf8_len in *. rewrite existsb_app, HU0. destruct (existsb is_surrogate q); [discriminate|]. injection HM as <-. reflexivity. }
    unfold name_ok. rewrite A1, A2, UF. cbn [negb andb]. apply Nat.leb_le. lia.
Qed.
