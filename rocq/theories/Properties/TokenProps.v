(** * C106: the supply of a token is conserved over every history *)
From Verif Require Import Model.Base Model.State Model.Dec Model.Time Model.Value Model.Encoder Model.Hdf5 Model.Runtime Model.Driver Model.Orm Model.Exec Model.Executor Model.DecOps Model.TimeOps.
From Verif Require Import Spec.DecSpec Spec.OrmSpec Spec.ExecSpec Spec.IsolationSpec Spec.TokenSpec Proofs.BaseFacts Proofs.DecFacts Proofs.DecOps Proofs.DecText Proofs.DriverFacts Proofs.OrmFacts Proofs.ExecFacts Proofs.ExecRel Proofs.TxFacts Proofs.MeterFacts Proofs.IsoFacts Proofs.TokenFacts.
From Verif Require Import Properties.DecProps Properties.OrmProps Properties.TxProps Properties.Demo Properties.IsolationProps.
From Coq Require Import Lia.
Local Open Scope Z_scope.

Section Token.
  Variables (L : lang) (c : pystr) (ln : nat -> line_event).
  Notation Own := (token_code L c ln).
  Lemma account_storage a : ~ In (ch ".") a -> storage_of c (account_key c a).
  Proof. intros Ha. exists (u "balances:" ++ a). split; [reflexivity|]. split; [|intros E; vm_compute in E; discriminate E]. intros H. apply in_app_or in H as [H|H]; [|exact (Ha H)]. vm_compute in H. intuition discriminate. Qed.
  (** what is read afterwards, has the same supply *)
  Definition conserving (f g : pystr -> result pyval) : Prop := forall S, S <= MAXU -> supply c f S -> supply c g S.
  Lemma conserving_storage : storage_relation c conserving.
  Proof.
    constructor; [intros f g h A B S HS H; apply B; [exact HS|]; apply A; assumption|].
    intros f g H S _. apply supply_same. intros a Ha. apply H. apply account_storage, Ha.
  Qed.
  Hypothesis NC : ~ In (ch ":") c.
  Lemma nocolon n x : ~ In (ch ":") n -> ~ In (ch ":") x -> ~ In (ch ":") (n ++ x).
  Proof using. intros H1 H2 H3. apply in_app_or in H3. tauto. Qed.
  Lemma token_keeps : keeps_storage L c Own conserving.
  Proof using NC.
    intros p fuel chain HO _ s a s' [D1 D2 D3] E.
    assert (E2 : exists RR, run L fuel chain p = go L RR chain p) by (destruct fuel; eexists; reflexivity).
    destruct E2 as (RR & E2). rewrite E2 in E. destruct (token_conserves L c ln RR chain p s a s' HO E) as [[F1 F2 F3 F4] HC]. split.
    - constructor.
      + rewrite F2; [exact D1|]. apply nocolon; [exact NC|vm_compute; intuition discriminate].
      + intros n x b md Hn Ex. rewrite F2 in Ex; [exact (D2 n x b md Hn Ex)|]. apply nocolon; [exact Hn|vm_compute; intuition discriminate].
      + rewrite F1. exact D3.
    - intros S HS HU. destruct (dv_bypass (s_drv s)) eqn:B; [|exact (HC eq_refl S HS HU)]. eapply supply_same; [|exact HU]. intros k _. apply F4. reflexivity.
  Qed.

  Hypothesis HL : honest_language L c.
  (** The supply of a deployed token is the same after any history of transactions whose fees are paid in another currency, whatever
      contracts they run, submit and call *)
  Theorem C106_supply_conserved fuel l s s' S : Forall (fee_elsewhere c) l -> history L fuel l s s' -> deployed_world L c Own s -> S <= MAXU -> supply c (look s) S -> supply c (look s') S.
  Proof using NC HL. intros HF H D HS HU. exact (proj2 (C104_history L c Own conserving conserving_storage HL token_keeps fuel l s s' NC HF H D) S HS HU). Qed.

  (** When the token is the currency of fees, a transaction destroys at most the fee, and creates nothing *)
  Theorem C106_fee_destroyed fuel g t s out s' S :
    ~ In (ch ":") (t_contract t) -> t_auto t = false -> deployed_world L c Own s -> execute L fuel g t s = (Ok out, s') ->
    g_currency g = c -> g_balances g = u "balances" -> ~ In (ch ".") (t_sender t) ->
    (forall fee n, cd_of_float (l_fdiv L (o_stamps out) (t_rate t)) = Ok fee -> has_units fee n -> 0 <= n) ->
    S <= MAXU -> supply c (look s) S ->
    exists S', supply c (look s') S' /\ S' <= S /\
      (metered g t = false -> S' = S) /\
      (forall fee n, cd_of_float (l_fdiv L (o_stamps out) (t_rate t)) = Ok fee -> has_units fee n -> S - n <= S').
  Proof using NC HL.
    intros NT A D HE G1 G2 HS HN HM HU. destruct (C104_transaction L c Own conserving conserving_storage HL token_keeps fuel g t s out s' NC NT A D HE) as (D' & f & Rf & _ & F1 & F2 & F3).
    specialize (Rf S HM HU). assert (BK : balance_key g t = account_key c (t_sender t)) by (unfold balance_key, account_key; rewrite G1, G2; reflexivity).
    destruct (metered g t) eqn:M.
    2:{ exists S. split; [eapply supply_same; [|exact Rf]; intros a _; apply F2; reflexivity|]. split; [lia|]. split; [reflexivity|]. intros fee n HF HU2. specialize (HN fee n HF HU2). lia. }
    destruct (F3 eq_refl) as (fee & bal & x & EF & EB & EX & EL). pose proof (c_float _ _ EF) as Hc. destruct (constructed_wf _ Hc) as (nf & Un & _).
    pose proof (HN fee nf EF Un) as Hnf. rewrite BK in *. destruct (supply_holds c f S (t_sender t) Rf HS) as (n & (v & Ev & Hv) & Rn). rewrite EB in Ev. injection Ev as <-.
    assert (HB : holds f c (t_sender t) n) by (exists bal; auto).
    destruct (dv_bypass (s_drv s)).
    { exists S. split; [|split; [lia|split; [reflexivity|]]].
      - eapply supply_same; [|exact Rf]. intros a _. destruct (str_eqb_spec (account_key c a) (account_key c (t_sender t))) as [->|Hk]; [rewrite EL, EB; reflexivity|apply F1; exact Hk].
      - intros fee' n' HF HU2. specialize (HN fee' n' HF HU2). lia. }
    pose proof (minus_amount bal fee n nf x Hv Hc Un EX ltac:(lia)) as HA. exists (S - n + Z.max 0 (n - nf)). split; [|split; [lia|split; [discriminate|]]].
    - apply (supply_update c f (look s') (t_sender t) n (Z.max 0 (n - nf)) S HS HB); [exists (max0 x); auto|lia|exact F1|exact Rf].
    - intros fee' n' HF HU2. rewrite EF in HF. injection HF as <-. rewrite (has_units_inj _ _ _ HU2 Un). lia.
  Qed.
  (** ... so over a history, whatever it calls, the supply never grows *)
  Definition fee_burns (x : cfg * txn) : Prop :=
    g_currency (fst x) = c /\ g_balances (fst x) = u "balances" /\ ~ In (ch ".") (t_sender (snd x)) /\
    forall stamps fee n, cd_of_float (l_fdiv L stamps (t_rate (snd x))) = Ok fee -> has_units fee n -> 0 <= n.
  Theorem C106_supply_never_grows fuel l s s' S : Forall (fun x => fee_elsewhere c x \/ fee_burns x) l -> history L fuel l s s' -> deployed_world L c Own s -> S <= MAXU -> supply c (look s) S ->
    exists S', S' <= S /\ supply c (look s') S'.
  Proof using NC HL.
    intros HF H. revert S HF. induction H as [s|g t s out s1 l s' A T E H IH|s s1 l s' E M H IH]; intros S HF D HM HU.
    - exists S. split; [lia|exact HU].
    - inversion HF as [|x y F1 F2]; subst. assert (H1 : deployed_world L c Own s1 /\ exists S1, S1 <= S /\ supply c (look s1) S1).
      { destruct F1 as [F1|(G1 & G2 & G3 & G4)].
        - destruct (C104_fee_elsewhere L c Own conserving conserving_storage HL token_keeps fuel g t s out s1 NC T A F1 D E) as [D1 R1]. split; [exact D1|]. exists S. split; [lia|exact (R1 S HM HU)].
        - destruct (C104_transaction L c Own conserving conserving_storage HL token_keeps fuel g t s out s1 NC T A D E) as (D1 & _). split; [exact D1|].
          destruct (C106_fee_destroyed fuel g t s out s1 S T A D E G1 G2 G3 (G4 _) HM HU) as (S1 & H1 & H2 & _). exists S1. auto. }
      destruct H1 as (D1 & S1 & L1 & U1). destruct (IH S1 F2 D1 ltac:(lia) U1) as (S2 & L2 & U2). exists S2. split; [lia|exact U2].
    - destruct (step_ok L c Own conserving conserving_storage s s1 D (fun k _ => E k)) as [D1 R1]; [rewrite M; apply (dw_mods L c Own _ D)|].
      exact (IH S HF D1 HM (R1 S HM HU)).
  Qed.
End Token.

(** ** A world with the token, and a shop that pays with it *)
Definition TOK := u "con_token".
Definition ln0 (_ : nat) : line_event := code_line 100.
Definition shop_pays : prog := PImport Stmt TOK (PCall TOK (u "transfer") [(u "amount", VInt 3); (u "to", VStr (u "bob"))] (fun v => PRet v)).
Definition shop_mod : modul := only_f (u "con_shop") shop_pays.
(** compiled code is 'name:source' *)
Definition shop_lang : lang := mkLang
  (fun n src => Ok (n ++ u ":" ++ src)) (fun src => Ok src)
  (fun b => if str_eqb b (u "con_token:token") then Ok (token (demo []) TOK ln0) else if str_eqb b (u "con_shop:shop") then Ok shop_mod else Err EValue)
  (l_host (demo [])) (l_sysmod (demo [])) (l_stdlib (demo [])) (l_name_ok (demo [])) (l_islower (demo [])) (l_rand (demo [])) (l_ostr (demo [])) (l_ord (demo [])) (l_boot (demo [])) (l_fdiv (demo [])).
Definition shop_start : mach := idle_mach (deployed TOK (u "con_token:token") VNone ++ deployed (u "con_shop") (u "con_shop:shop") VNone ++ [(account_key TOK (u "alice"), VInt 10)] ++ funded "alice" 100 ++ funded "carol" 100).
Definition pay : txn := mkTx (u "alice") TOK (u "transfer") [(u "amount", VInt 5); (u "to", VStr (u "con_shop"))] [] false 1000 20 (Some true).
Definition shop_history : list (cfg * txn) := [(cfg0, pay); (cfg0, call_of "carol" "con_shop" "f")].
Lemma history_step L fuel g t l s s' : t_auto t = false -> ~ In (ch ":") (t_contract t) -> is_ok (fst (execute L fuel g t s)) = true -> history L fuel l (snd (execute L fuel g t s)) s' -> history L fuel ((g, t) :: l) s s'.
Proof. intros A T E H. destruct (execute L fuel g t s) as [[out|] s1] eqn:EX; [|discriminate]. cbn [snd] in H. eapply hi_tx; eassumption. Qed.
Definition shop_end : mach := snd (execute shop_lang 10 cfg0 (call_of "carol" "con_shop" "f") (snd (execute shop_lang 10 cfg0 pay shop_start))).
Lemma shop_foreign_token : foreign shop_lang TOK shop_pays.
Proof. cbn [shop_pays foreign each foreign_node]. split; [vm_compute; intuition discriminate|]. split; [exact I|]. intros v. exact (conj I I). Qed.
Lemma shop_honest : honest_language shop_lang TOK.
Proof.
  constructor.
  - intros n code text b md Hn E1 E2 E3. cbn [shop_lang l_compile l_marshal l_interp] in *. injection E1 as <-. injection E2 as <-. match type of E3 with context [str_eqb ?a (u "con_token:token")] => destruct (str_eqb_spec a (u "con_token:token")) as [E|_] end.
    { exfalso. apply Hn. change (u "con_token:token") with (TOK ++ u ":" ++ u "token") in E.
      assert (NT : ~ In (ch ":") (TOK ++ u "token")) by (vm_compute; intuition discriminate).
      revert E NT. clear. generalize (u "token") as r. generalize TOK as c. intros c. revert n. induction c as [|x c IH]; intros [|y n] r E NT; [reflexivity| | |].
      - cbn in E. injection E as _ E. exfalso. apply NT. cbn. rewrite <- E. apply in_or_app. right. left. reflexivity.
      - cbn in E. injection E as E _. exfalso. apply NT. left. symmetry. exact E.
      - cbn in E. injection E as -> E. f_equal. apply (IH n r E). intros H. apply NT. right. exact H. }
    match type of E3 with context [str_eqb ?a ?b] => destruct (str_eqb a b) end; [|discriminate]. injection E3 as <-. split; [exact (conj I I)|]. split; [discriminate|]. intros fn f args. cbn [m_funcs shop_mod only_f dget]. destruct (str_eqb fn (u "f")); [|discriminate]. intros E. injection E as <-. exact shop_foreign_token.
  - intros n md. cbn [shop_lang l_host demo]. destruct (str_eqb n (u "os")); [|discriminate]. intros E. injection E as <-. intros fn f args. cbn [m_funcs os_module dget]. destruct (str_eqb fn (u "system")); [|discriminate]. intros E. injection E as <-. exact (conj I I).
  - reflexivity.
Qed.
Lemma token_loadable : loadable shop_lang TOK (token_code shop_lang TOK ln0) (token (demo []) TOK ln0).
Proof.
  right. split; [exact (conj I I)|]. intros fn f args. cbn [token m_funcs dget]. destruct (str_eqb fn (u "transfer")); [intros E; injection E as <-; right; exists args; left; reflexivity|].
  destruct (str_eqb fn (u "approve")); [intros E; injection E as <-; right; exists args; right; left; reflexivity|]. destruct (str_eqb fn (u "transfer_from")); [intros E; injection E as <-; right; exists args; right; right; reflexivity|discriminate].
Qed.
Lemma shop_loadable Own : loadable shop_lang TOK Own shop_mod.
Proof. right. split; [exact (conj I I)|]. intros fn f args. cbn [m_funcs shop_mod only_f dget]. destruct (str_eqb fn (u "f")); [|discriminate]. intros E. injection E as <-. left. exact shop_foreign_token. Qed.
Lemma shop_deployed : deployed_world shop_lang TOK (token_code shop_lang TOK ln0) shop_start.
Proof.
  constructor; [vm_compute; discriminate| |intros n md E; discriminate E].
  intros n x b md _ _ _ HI. cbn [shop_lang l_interp] in HI.
  match type of HI with context [if ?c then _ else _] => destruct c end; [injection HI as <-; exact token_loadable|].
  match type of HI with context [if ?c then _ else _] => destruct c end; [injection HI as <-; apply shop_loadable|discriminate HI].
Qed.
(** look in a machine with nothing cached or on disk *)
Lemma look_idle ws k : look (idle_mach ws) k = match dget k ws with Some v => if is_none v then value_from_disk k [] else Ok v | None => value_from_disk k [] end.
Proof. rewrite look_find. change (s_drv (idle_mach ws)) with (set_writes ws (driver0 false [])). unfold find. cbn [dv_bypass driver0 set_writes dv_writes dv_cache dv_disk]. unfold pget. cbn [dget]. destruct (dget k ws) as [v|]; [destruct v; reflexivity|reflexivity]. Qed.
Lemma nothing_on_disk k : value_from_disk k [] = Ok VNone.
Proof. unfold value_from_disk. destruct (parse_key k) as [fn g]. unfold get_value_from_disk, get_value, get_attr, open_r. cbn [dget]. repeat match goal with |- context [if ?b then _ else _] => destruct b end; reflexivity. Qed.
Lemma shop_supply : supply TOK (look shop_start) (10 * ONE).
Proof.
  exists [(u "alice", 10 * ONE)]. split; [constructor; [intros []|constructor]|]. split; [|split; [|reflexivity]].
  - constructor; [|constructor]. cbn [fst snd]. split; [unfold ONE; lia|]. split; [vm_compute; intuition discriminate|]. exists (VInt 10). split; [vm_compute; reflexivity|]. cbn. split; [reflexivity|]. unfold LIMU, MAXU, ONE. lia.
  - intros a Ha Hn. exists VNone. split; [|reflexivity]. unfold shop_start. rewrite look_idle, nothing_on_disk.
    destruct (dget (account_key TOK a) _) as [v|] eqn:E; [exfalso|reflexivity]. unfold deployed, funded in E. cbn [is_none app dget] in E.
    repeat match type of E with context [str_eqb ?x ?y] => let H := fresh "K" in destruct (str_eqb_spec x y) as [H|_]; [clear E; revert H; try (vm_compute; discriminate)|] end.
    + intros H. apply account_inj in H. apply Hn. left. symmetry. exact H.
    + discriminate E.
Qed.
(** the example: alice pays the shop 5, the shop (called by carol) pays bob 3; the supply is still 10 *)
Example C106_example : history shop_lang 10 shop_history shop_start shop_end /\ supply TOK (look shop_end) (10 * ONE) /\
  look shop_end (account_key TOK (u "alice")) = Ok (VDec (mkfd false 5 0)) /\ look shop_end (account_key TOK (u "con_shop")) = Ok (VDec (mkfd false 2 0)) /\ look shop_end (account_key TOK (u "bob")) = Ok (VDec (mkfd false 3 0)).
Proof.
  assert (H : history shop_lang 10 shop_history shop_start shop_end).
  { unfold shop_history, shop_end. apply history_step; [reflexivity|vm_compute; intuition discriminate|vm_compute; reflexivity|].
    generalize (snd (execute shop_lang 10 cfg0 pay shop_start)) (eq_refl : is_ok (fst (execute shop_lang 10 cfg0 (call_of "carol" "con_shop" "f") (snd (execute shop_lang 10 cfg0 pay shop_start)))) = true). intros s1 E1. apply history_step; [reflexivity|vm_compute; intuition discriminate|exact E1|]. apply hi_nil. }
  split; [exact H|]. split.
  - refine (C106_supply_conserved shop_lang TOK ln0 _ shop_honest 10 shop_history shop_start shop_end (10 * ONE) _ H shop_deployed _ shop_supply).
    + vm_compute. intuition discriminate.
    + constructor; [|constructor; [|constructor]]; right; intros (r & E & _); vm_compute in E; discriminate E.
    + unfold MAXU, ONE. lia.
  - split; [vm_compute; reflexivity|]. split; vm_compute; reflexivity.
Qed.
(** The example for C104: a contract that only writes its own variable, called by carol, leaves the vault alone *)
Definition VAULT := u "con_vault".
Definition paid_mod : modul := only_f (u "con_shop") (put "con_shop" "paid" (VInt 1) (PRet VNone)).
Definition vault_lang : lang := demo [(u "shop", paid_mod)].
Definition vault_start : mach := idle_mach (deployed VAULT (u "vault") VNone ++ [(make_key VAULT (u "gold") [], VInt 7)] ++ deployed (u "con_shop") (u "shop") VNone ++ funded "carol" 100).
Definition vault_end : mach := snd (execute vault_lang 10 cfg0 (call_of "carol" "con_shop" "f") vault_start).
Lemma paid_foreign : foreign vault_lang VAULT (put "con_shop" "paid" (VInt 1) (PRet VNone)).
Proof.
  split; [|intros v; exact (conj I I)]. cbn [foreign_node foreign_action]. split; [intros (r & E & _); vm_compute in E; discriminate E|].
  intros (n & _ & E). apply (f_equal (@rev N)) in E. rewrite rev_app_distr in E. vm_compute in E. discriminate E.
Qed.
Lemma paid_only b md : l_interp vault_lang b = Ok md -> md = paid_mod.
Proof. cbn [vault_lang demo l_interp dget]. destruct (str_eqb b (u "shop")); [|discriminate]. intros E. injection E as <-. reflexivity. Qed.
Lemma paid_funcs fn f args : dget fn (m_funcs paid_mod) = Some f -> foreign vault_lang VAULT (f_body f args).
Proof. cbn [paid_mod only_f m_funcs dget]. destruct (str_eqb fn (u "f")); [|discriminate]. intros E. injection E as <-. exact paid_foreign. Qed.
Example C104_example : history vault_lang 10 [(cfg0, call_of "carol" "con_shop" "f")] vault_start vault_end /\
  (forall k, storage_of VAULT k -> look vault_end k = look vault_start k) /\ look vault_end (make_key (u "con_shop") (u "paid") []) = Ok (VInt 1) /\ look vault_end (make_key VAULT (u "gold") []) = Ok (VInt 7).
Proof.
  assert (H : history vault_lang 10 [(cfg0, call_of "carol" "con_shop" "f")] vault_start vault_end).
  { unfold vault_end. apply history_step; [reflexivity|vm_compute; intuition discriminate|vm_compute; reflexivity|]. apply hi_nil. }
  split; [exact H|]. split; [|split; vm_compute; reflexivity].
  refine (C104_foreign_code_cannot_write vault_lang VAULT 10 _ _ _ _ _ _ H _).
  - constructor.
    + intros n code text b md _ _ _ E. apply paid_only in E as ->. split; [exact (conj I I)|]. split; [discriminate|]. apply paid_funcs.
    + intros n md. cbn [vault_lang l_host demo]. destruct (str_eqb n (u "os")); [|discriminate]. intros E. injection E as <-. intros fn f args. cbn [m_funcs os_module dget]. destruct (str_eqb fn (u "system")); [|discriminate]. intros E. injection E as <-. exact (conj I I).
    + reflexivity.
  - vm_compute. intuition discriminate.
  - constructor; [|constructor]. right. intros (r & E & _). vm_compute in E. discriminate E.
  - constructor; [vm_compute; discriminate| |intros n md E; discriminate E]. intros n x b md _ _ _ E. apply paid_only in E as ->. right. split; [exact (conj I I)|]. intros fn f args E. left. exact (paid_funcs fn f args E).
Qed.
(** The hypothesis on other code is needed: an inline Hash(contract='con_vault', ...), which the linter accepts (C32_refuted), writes it *)
Definition thief_lang : lang := demo [(u "shop", only_f (u "con_shop") (put "con_vault" "gold" (VInt 0) (PRet VNone)))].
Theorem C104_linted_code_refuted : exists s', history thief_lang 10 [(cfg0, call_of "carol" "con_shop" "f")] vault_start s' /\
  look vault_start (make_key VAULT (u "gold") []) = Ok (VInt 7) /\ look s' (make_key VAULT (u "gold") []) = Ok (VInt 0).
Proof.
  exists (snd (execute thief_lang 10 cfg0 (call_of "carol" "con_shop" "f") vault_start)). split; [|split; vm_compute; reflexivity].
  apply history_step; [reflexivity|vm_compute; intuition discriminate|vm_compute; reflexivity|]. apply hi_nil.
Qed.
(** ** C105 *)
Example C105_example : s_mods shop_start = [] /\ s_mods shop_end = [] /\
  match execute shop_lang 10 cfg0 pay shop_start with (Ok o, s') => o_status o = 0 /\ s_mods s' = [] | _ => False end.
Proof. vm_compute. repeat split; reflexivity. Qed.
(** If execute raises, the modules stay: the contract leaves a str as the balance, from which no fee can be subtracted *)
Definition junk_lang : lang := demo [(u "shop", only_f (u "con_shop") (put_h "currency" "balances" "carol" (VStr (u "x")) (PRet VNone)))].
Theorem C105_raised_refuted : exists e s', execute junk_lang 10 cfg0 (call_of "carol" "con_shop" "f") vault_start = (Err e, s') /\ s_mods vault_start = [] /\ dget (u "con_shop") (s_mods s') <> None.
Proof.
  destruct (execute junk_lang 10 cfg0 (call_of "carol" "con_shop" "f") vault_start) as [r s'] eqn:E. exists (match r with Err e => e | Ok _ => EType end), s'.
  assert (H : match execute junk_lang 10 cfg0 (call_of "carol" "con_shop" "f") vault_start with (Err _, s1) => match dget (u "con_shop") (s_mods s1) with None => False | Some _ => True end | _ => False end) by (vm_compute; exact I).
  rewrite E in H. destruct r as [|e]; [contradiction|]. split; [reflexivity|]. split; [reflexivity|]. destruct (dget (u "con_shop") (s_mods s')); [discriminate|contradiction].
Qed.
