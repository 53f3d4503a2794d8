(** Prop_App.v -- what each call may change (C68, C69) and where random numbers
    come from (C70). *)
From Verif Require Import LUp4 PStrict Prop_Chan Demo LCfg SpecApp.

(** ** C68 *)
Theorem C68_app_settings : forall E w o v es w',
  env_ok E -> reachable E w -> op_wf o -> step E w o = Some (v, es, w') ->
  app_of w' = app_call o (app_of w).
Proof.
  intros E w o v es w' HE Hr Hw H. pose proof (reach_Inv E w HE Hr) as HI.
  apply step_inv in H; try assumption. unfold app_of, stk. destruct H.
  - destruct o; cbn [simple op_wf] in *; unfold is_u8 in *; try discriminate; cbn [app_call];
      repeat match type of H with context [if ?b then _ else _] => destruct b eqn:? end;
      injection H as <- <-; cbn;
      repeat match goal with |- context [if ?b then _ else _] => destruct b eqn:? end; try reflexivity; try (exfalso; lia); unfold p_enq; destruct (p_fits _ _); reflexivity.
  - unfold app_call, init_state, init_stk. cbn. destruct r; reflexivity.
  - inv_ok H; reflexivity.
  - inv_ok H; reflexivity.
  - reflexivity.
  - apply irq_fr in H; [|apply relax_ok; exact HE|reflexivity|exact HI]. destruct H. cbn [app_call]. congruence.
  - rewrite H. cbn. rewrite H0. reflexivity.
  - reflexivity.
  - inv_ok H0; reflexivity.
  - reflexivity.
  - inv_ok H0; reflexivity.
Qed.
Print Assumptions C68_app_settings.
Theorem C68_history : forall E ops tr w,
  env_ok E -> Forall op_wf ops -> exec E world0 ops tr w ->
  app_of w = fold_left (fun x o => app_call o x) ops app_start.
Proof.
  intros E ops tr w HE Hw Hx.
  assert (G : forall w0 ops tr w, exec E w0 ops tr w -> reachable E w0 -> Forall op_wf ops ->
    app_of w = fold_left (fun x o => app_call o x) ops (app_of w0)).
  { clear ops tr w Hw Hx. induction 1 as [|w0 o ops v es w1 tr w2 Hs Hx IH]; intros Hr Hw; [reflexivity|].
    inversion Hw; subst. cbn [fold_left]. rewrite <- (C68_app_settings E w0 o v es w1) by assumption.
    apply IH; [|assumption]. exact (step_reach E w0 o v es w1 Hr H1 Hs). }
  change app_start with (app_of world0). apply (G world0 ops tr w Hx); [exists [], []; split; constructor|exact Hw].
Qed.
Print Assumptions C68_history.
Example C68_case : run_of (demo [] [(join_accept_frame toy_cmac toy_dec k3 74565 19 305419896 18 3 [], 5)])
  [OSetEirp 9; OInit EU868; OSetOtaa eui1 eui2 k3; OAdrSetup 3 9; OSetNb 0; OSetNb 5; OSetTxp 200]
  [OJoin; OIrq 4; OTimer TIMER_RX1; OIrq 2]
  (fun w tr w' => is_joined (ses w') && (a_eirp (app_of w') =? 9) && (a_limit (app_of w') =? 3) && (a_nb (app_of w') =? 5) &&
     (a_power (app_of w') =? 0) && list_eqb (a_app_key (app_of w')) k3).
Proof. show_run. Qed.

(** ** C69 *)
Theorem C69_settings : forall E w o v es w',
  env_ok E -> reachable E w -> op_wf o -> step E w o = Some (v, es, w') -> reads es = [] ->
  config_of w' = config_call o (config_of w) /\ table w' = table_call o (table w).
Proof.
  intros E w o v es w' HE Hr Hw H Hn. pose proof (reach_Inv E w HE Hr) as HI.
  destruct (match o with OIrq _ => true | _ => false end) eqn:Io.
  - destruct o as [| | | | | | | | | | | | | | | | | | | | | | |m| | | | |]; try discriminate Io.
    destruct (recv_dec w m) as [R|R]; [rewrite (irq_reads E w m v es w' HE HI Hw H R) in Hn; discriminate Hn|].
    pose proof (norx_step E w m v es w' HE HI H R) as N. rewrite (norx_config _ _ _ _ N). split.
    + cbn [config_call]. destruct (config_of w). reflexivity.
    + cbn [table_call]. unfold table, chan_table. rewrite (nr_ch _ _ _ _ N). reflexivity.
  - split; [apply (step_config E w o v es w'); try assumption; intros m ->; discriminate Io|].
    destruct o; try discriminate Io; cbn [table_call].
    all: first
      [ destruct (C08_set_channel E w _ _ HE Hr Hw) as (w1 & Hs & Ht & _); rewrite Hs in H; injection H as <- <- <-; exact Ht
      | destruct (C08_enable_channel E w _ _ HE Hr Hw) as (w1 & Hs & Ht & _); rewrite Hs in H; injection H as <- <- <-; exact Ht
      | exact (C08_init_table E w _ v es w' HE Hr H)
      | idtac ].
    all: apply step_inv in H; try assumption; unfold table, chan_table; f_equal; remember (w_st w') as s' eqn:Es'; clear Es'; inversion H; subst; try discriminate; try reflexivity.
    all: try match goal with X : simple _ _ = Some _ |- _ => cbn [simple] in X;
        repeat match type of X with context [if ?b then _ else _] => destruct b end; injection X as; subst; reflexivity end.
    all: try match goal with X : send_cases _ _ _ _ _ _ _ |- _ => inv_ok X; reflexivity end.
    all: try match goal with X : join_cases _ _ _ _ |- _ => inv_ok X; reflexivity end.
    all: try match goal with X : _ = on_cs _ _ |- _ => rewrite X; reflexivity end.
Qed.
Print Assumptions C69_settings.
Example C69_settings_case : case_of (demo [] []) (abp 5 0 ++ [OSetRx2 869525000 3; OSetRx1Off 2]) (OSend 1 [7] false)
  (fun w v es w' => returns ERR_NO v && (uw_rx2_dr (stk w') =? 3) && (uw_rx1_offset (stk w') =? 2) && (uw_rx2_frequency (stk w') =? 869525000)).
Proof. show_case. Qed.

Lemma send_ses_call E p d c h s e s' es : Inv s -> send_cases E p d c h s (Ok (e, s', es)) ->
  if accepted (VErr e) then
    (ses_dr (s_ses s') = ses_dr (s_ses s) \/ ses_dr (s_ses s') = ses_dr (s_ses s) - 1) /\
    s_ses s' = Mk_session (is_joined (s_ses s)) false (ses_dr (s_ses s')) (dev_addr (s_ses s)) ((f_cnt_up (s_ses s) + 1) mod 4294967296)
      (f_cnt_down (s_ses s)) (nwk_s_key (s_ses s)) (app_s_key (s_ses s))
  else s_ses s' = s_ses s.
Proof.
  intros HI H. inv_ok H; try reflexivity.
  cbn [accepted]. unfold send_state. cbn [s_ses]. unfold send_ses. cbn [ses_dr].
  split; [|reflexivity]. unfold r_uplink_dr. repeat match goal with |- context [if ?b then _ else _] => destruct b end; auto.
Qed.
Theorem C69_session : forall E w o v es w',
  env_ok E -> reachable E w -> op_wf o -> step E w o = Some (v, es, w') -> reads es = [] ->
  session_call o v (default_dr (stk w)) (ses w) (ses w').
Proof.
  intros E w o v es w' HE Hr Hw H Hn. pose proof (reach_Inv E w HE Hr) as HI.
  destruct (match o with OIrq _ => true | _ => false end) eqn:Io.
  - destruct o as [| | | | | | | | | | | | | | | | | | | | | | |m| | | | |]; try discriminate Io.
    destruct (recv_dec w m) as [R|R]; [rewrite (irq_reads E w m v es w' HE HI Hw H R) in Hn; discriminate Hn|].
    exact (nr_ses _ _ _ _ (norx_step E w m v es w' HE HI H R)).
  - apply step_inv in H; try assumption. unfold ses, stk. remember (w_st w') as s' eqn:Es'. clear Es'. destruct H; try discriminate Io.
    + destruct o; cbn [simple op_wf] in *; unfold is_u8 in *; try discriminate; cbn [session_call];
        repeat match type of H with context [if ?b then _ else _] => destruct b eqn:? end; injection H as <- <-; cbn;
        repeat match goal with |- context [if ?b then _ else _] => destruct b eqn:? end; try reflexivity; exfalso; lia.
    + reflexivity.
    + inv_ok H; reflexivity.
    + exact (send_ses_call _ _ _ _ _ _ _ _ _ HI H).
    + reflexivity.
    + rewrite H. reflexivity.
    + cbn [session_call]. destruct e; cbn [accepted]; try reflexivity. contradiction.
    + apply (send_ses_call _ _ _ _ _ _ _ _ _ (cs_req_Inv _ HI)) in H0. exact H0.
    + cbn [session_call]. destruct e; cbn [accepted]; try reflexivity. contradiction.
    + exact (send_ses_call _ _ _ _ _ _ _ _ _ HI H0).
Qed.
Print Assumptions C69_session.
Example C69_session_case : case_of (demo [] []) [OInit EU868; OSetDr 4] (OSetSession 305419896 70000 12 k1 k2)
  (fun w v es w' => is_joined (ses w') && (ses_dr (ses w') =? 4) && (dev_addr (ses w') =? 305419896) && (f_cnt_up (ses w') =? 70000) &&
     (f_cnt_down (ses w') =? 12) && list_eqb (nwk_s_key (ses w')) k1 && list_eqb (app_s_key (ses w')) k2).
Proof. show_case. Qed.

(** receiving: outside a join attempt the identity and the uplink counter stay;
    in one, they stay unless the join-accept is reported as accepted *)
Theorem C69_receive : forall E w m v es w',
  env_ok E -> reachable E w -> op_wf (OIrq m) -> step E w (OIrq m) = Some (v, es, w') ->
  (joining w = false -> same_keys w w') /\
  (joining w = true -> handed_ok es = false -> ses w' = ses w /\ config_of w' = config_of w /\ table w' = table w).
Proof.
  intros E w m v es w' HE Hr Hw H. pose proof (reach_Inv E w HE Hr) as HI.
  destruct (recv_dec w m) as [R|R].
  - split; intro J.
    + destruct (data_outcome E w m v es w' HE HI H R J) as [r t vw A1 A2 A3 A4 A5 K|r c t vw A1 A2 A3 A4 A5 A6 A7 A8 A9 A10 A11 A12]; [|exact A8].
      destruct K as (_ & _ & _ & K & _ & _). unfold same_keys. rewrite K. repeat split.
    + intro Hk. destruct (join_outcome E w m v es w' HE HI H R J) as [r vw A B _ _ _ C G K|rg vw A B C G Dd F].
      * destruct K as (K1 & K2 & K3 & K4 & K5 & K). split; [exact K4|]. split; [exact (transient_config _ _ K)|].
        unfold table, chan_table. rewrite K1. reflexivity.
      * exfalso. unfold handed_ok in Hk. rewrite C in Hk. discriminate Hk.
  - pose proof (norx_step E w m v es w' HE HI H R) as N. split; intro J.
    + unfold same_keys. rewrite (nr_ses _ _ _ _ N). repeat split.
    + intros _. split; [exact (nr_ses _ _ _ _ N)|]. split; [exact (norx_config _ _ _ _ N)|]. unfold table, chan_table. rewrite (nr_ch _ _ _ _ N). reflexivity.
Qed.
Print Assumptions C69_receive.

Example C69_receive_case : run_of (demo [] [(join_accept_frame toy_cmac toy_dec k3 74565 19 305419896 18 3 [] ++ [1], 5)])
  [OInit EU868; OSetSession 287454020 5 3 k1 k2; OSetOtaa eui1 eui2 k3; OJoin; OIrq 4; OTimer TIMER_RX1]
  [OIrq 2]
  (fun w tr w' => joining w && negb (handed_ok (all_evs tr)) && (f_cnt_up (ses w) =? 5) && (f_cnt_up (ses w') =? 5) &&
     (dev_addr (ses w') =? 287454020)).
Proof. show_run. Qed.
Theorem C69_inert : forall E w o v es w',
  env_ok E -> reachable E w -> op_wf o -> step E w o = Some (v, es, w') ->
  (asks o = true -> es = [] /\ w_st w' = w_st w) /\ (forall t, o = OTimer t -> w_st w' = w_st w).
Proof.
  intros E w o v es w' HE Hr Hw H. pose proof (reach_Inv E w HE Hr) as HI.
  pose proof H as H0. apply step_inv in H; try assumption. split.
  - intro A. destruct H; try discriminate A. split; [reflexivity|].
    destruct o; try discriminate A; cbn [simple] in H; injection H as <- <-; reflexivity.
  - intros t ->. inversion H; subst; [discriminate|reflexivity].
Qed.
Print Assumptions C69_inert.
Example C69_inert_case : case_of (demo [] [])
  [OInit EU868; OSetSession 287454020 5 3 k1 k2; OSend 3 [1;2] false; OIrq 4] (OTimer TIMER_RX1)
  (fun w v es w' => match es with [RRx _ _ _] => true | _ => false end).
Proof. show_case. Qed.

(** ** C70 *)
Definition is_boot (e : ev) : bool := match e with RSetHandler | RRand _ | LSrand _ => true | _ => false end.
Definition dull (e : ev) : bool := negb (is_boot e || is_draw e).
Lemma crypto_dull es : Forall (fun e => is_crypto e = true) es -> Forall (fun e => dull e = true) es.
Proof. apply Forall_impl. intros []; cbn; congruence. Qed.
Lemma mac_dull es : Forall (fun e => is_mac_ev e = true) es -> Forall (fun e => dull e = true) es.
Proof. apply Forall_impl. intros []; cbn; congruence. Qed.
Lemma cs_dull es : Forall (fun e => is_cs_ev e = true) es -> Forall (fun e => dull e = true) es.
Proof. apply Forall_impl. intros []; cbn; congruence. Qed.
Lemma data_dull E d rs sn h s r s2 es : env_ok E -> e_strict_shl E = false -> Inv s -> uw_region (s_stk s) <> None ->
  bytes_ok d -> -128 <= sn < 128 ->
  data_cases E d rs sn h s (Ok (r, s2, es)) -> Forall (fun e => dull e = true) es.
Proof.
  intros HE Hns HI Hr Hd Hsn H.
  assert (Hq : forall c, new_cnt (f_cnt_down (s_ses s)) (g16 d 6) = Some c ->
     Forall (fun e => dull e = true) (snd (d_cmds E h d sn c s))).
  { intros c Hc. apply mac_dull. apply d_cmds_facts; auto. eapply new_cnt_range; [|exact Hc]. apply g16_range. exact Hd. }
  inv_ok H; try apply Forall_nil; rewrite ?Forall_app.
  - split; [auto|]. apply crypto_dull, mic_evs_crypto.
  - split; [auto|]. split; [apply crypto_dull, mic_evs_crypto|]. unfold d_dec_evs. destruct (_ <=? 1); [apply Forall_nil|apply crypto_dull, crypt_evs_crypto].
Qed.
Lemma dl_dull E h s s' es : env_ok E -> e_strict_shl E = false -> Inv s -> uw_region (s_stk s) <> None ->
  dl_cases E h s (Ok (tt, s', es)) -> Forall (fun e => dull e = true) es.
Proof.
  intros HE Hns HI Hr H.
  assert (HI1 : Inv (rx_state (rx_data (e_pkt E h)) s))
    by (apply rx_state_Inv; [exact HI|apply (ok_pkt_byte E HE)|apply (ok_pkt_len E HE)]).
  inversion H; subst.
  - constructor; [reflexivity|]. constructor; [reflexivity|]. apply Forall_app. split; [|repeat constructor].
    apply crypto_dull. eapply ja_quiet. eassumption.
  - constructor; [reflexivity|]. constructor; [reflexivity|]. apply Forall_app. split; [|repeat constructor].
    eapply data_dull; [exact HE|exact Hns|exact HI1|exact Hr| | |eassumption].
    + apply (ok_pkt_byte E HE).
    + apply (ok_pkt_snr E HE).
Qed.
Lemma irq_dull E m h s s' es : env_ok E -> e_strict_shl E = false -> Inv s ->
  irq_cases E m h s (Ok (tt, s', es)) -> Forall (fun e => dull e = true) es.
Proof.
  intros HE Hns HI H. inv_ok H; try (repeat constructor; fail); try (unfold rx1_to_evs; repeat constructor; fail).
  - unfold tx_done_evs, tx_done_evs1, tx_done_time. repeat (constructor; [reflexivity|]).
    destruct (mac_save_dev_time _); [|constructor]. destruct (mac_cbs _) as [c|]; [|constructor].
    destruct (has_get_device_time c); repeat constructor.
  - constructor; [reflexivity|]. match goal with H : dl_cases _ _ _ _ |- _ =>
      exact (dl_dull E _ _ _ _ HE Hns (idle_Inv s HI ltac:(congruence)) (idle_region s HI ltac:(congruence)) H) end.
  - match goal with H : dl_cases _ _ _ _ |- _ =>
      exact (dl_dull E _ _ _ _ HE Hns (idle_Inv s HI ltac:(congruence)) (idle_region s HI ltac:(congruence)) H) end.
Qed.
Lemma dull_obs es : Forall (fun e => dull e = true) es -> existsb is_boot es = false /\ existsb is_draw es = false.
Proof.
  induction 1 as [|e es He Hf (I1 & I2)]; [auto|]. cbn. rewrite I1, I2. unfold dull in He.
  destruct (is_boot e), (is_draw e); try discriminate He; auto.
Qed.
Lemma crypto_noboot es : Forall (fun e => is_crypto e = true) es -> existsb is_boot es = false.
Proof. intro H. apply dull_obs, crypto_dull, H. Qed.
Lemma send_noboot E h p d c s : existsb is_boot (send_events E h p d c s) = false.
Proof.
  unfold send_events, rand_evs. rewrite !existsb_app. rewrite (crypto_noboot (mic_evs _ _ _)) by apply mic_evs_crypto.
  destruct (_ =? 0); (destruct (len d =? 0); [reflexivity|rewrite (crypto_noboot (crypt_evs _ _ _ _ _)) by apply crypt_evs_crypto; reflexivity]).
Qed.
Lemma join_noboot E h s : existsb is_boot (join_events E h s) = false.
Proof.
  unfold join_events, rand_evs. rewrite !existsb_app. rewrite (crypto_noboot (mic_evs _ _ _)) by apply mic_evs_crypto.
  destruct (_ =? 0); reflexivity.
Qed.
Lemma rand_noboot E h s : existsb is_boot (rand_evs E h s) = false.
Proof. unfold rand_evs. destruct (_ =? 0); reflexivity. Qed.
Lemma step_boot E w o v es w' : env_ok E -> Inv (w_st w) -> op_wf o -> step E w o = Some (v, es, w') -> (forall r, o <> OInit r) ->
  existsb is_boot es = false /\ (existsb is_draw es = true -> uw_state (stk w) <> NOT_INIT) /\
  (uw_state (stk w') <> NOT_INIT -> uw_state (stk w) <> NOT_INIT).
Proof.
  intros HE HI Hw H Ho. apply step_inv in H; try assumption. unfold stk. destruct H.
  - split; [reflexivity|]. split; [discriminate|].
    destruct o; cbn [simple] in *; try discriminate;
      repeat match type of H with context [if ?b then _ else _] => destruct b eqn:? end;
      injection H as <- <-; cbn; auto; unfold p_enq; destruct (p_fits _ _); cbn; auto.
  - exfalso. eapply Ho. reflexivity.
  - inv_ok H; try (split; [reflexivity|]; split; [discriminate|auto]; fail).
    all: split; [first [apply join_noboot|apply rand_noboot]|]; split; congruence.
  - inv_ok H; try (split; [reflexivity|]; split; [discriminate|auto]; fail).
    all: split; [first [apply send_noboot|apply rand_noboot]|]; split; congruence.
  - split; [|split; [|auto]]; unfold timer_evs; destruct t; repeat match goal with |- context [match ?b with _ => _ end] => destruct b end; cbn; try reflexivity; discriminate.
  - destruct (dull_obs _ (irq_dull (relax E) _ _ _ _ _ (relax_ok _ HE) eq_refl HI H)) as (A & B).
    split; [exact A|]. split; [rewrite B; discriminate|].
    inv_ok H; auto; congruence.
  - destruct (dull_obs _ (cs_dull _ H1)) as (A & B). split; [exact A|]. split; [rewrite B; discriminate|]. rewrite H. auto.
  - split; [reflexivity|]. split; [discriminate|auto].
  - inv_ok H0; try (split; [reflexivity|]; split; [discriminate|auto]; fail).
    all: split; [first [exact (send_noboot _ _ _ _ _ _)|exact (rand_noboot _ _ _)]|]; cbn in *; split; congruence.
  - split; [reflexivity|]. split; [discriminate|auto].
  - inv_ok H0; try (split; [reflexivity|]; split; [discriminate|auto]; fail).
    all: split; [first [exact (send_noboot _ _ _ _ _ _)|exact (rand_noboot _ _ _)]|]; cbn in *; split; congruence.
Qed.
Theorem C70_init : forall E w r v es w',
  env_ok E -> reachable E w -> step E w (OInit r) = Some (v, es, w') ->
  v = VUnit /\ exists s, es = [RSetHandler; RRand s; LSrand s].
Proof.
  intros E w r v es w' HE Hr H. pose proof (reach_Inv E w HE Hr) as HI.
  apply step_inv in H; try assumption; [|exact I]. inversion H; subst; [discriminate|].
  split; [reflexivity|]. eexists. reflexivity.
Qed.
Print Assumptions C70_init.
Example C70_init_case : case_of (demo [77] []) [OInit EU868] (OInit EU868)
  (fun w v es w' => match es with [RSetHandler; RRand a; LSrand b] => (a =? b) | _ => false end).
Proof. show_case. Qed.
Lemma app_eq_app A : forall (a b c d : list A), a ++ b = c ++ d ->
  exists l, (a = c ++ l /\ d = l ++ b) \/ (c = a ++ l /\ b = l ++ d).
Proof.
  induction a as [|x a IH]; intros b c d H; [exists c; right; auto|].
  destruct c as [|y c]; [exists (x :: a); left; cbn in *; auto|].
  cbn in H. injection H as <- H. destruct (IH b c d H) as (l & [(-> & ->)|(-> & ->)]); exists l; [left|right]; auto.
Qed.
Lemma boot_seed es : existsb is_boot es = false -> existsb is_seed es = false.
Proof. induction es as [|e es IH]; [auto|]. cbn. destruct e; cbn; auto; discriminate. Qed.
Lemma seeded_app a b : seeded a -> existsb is_seed b = false -> seeded (a ++ b).
Proof.
  intros (x & s & y & -> & Hy) Hb. exists x, s, (y ++ b). split; [rewrite <- !app_assoc; reflexivity|].
  rewrite existsb_app, Hy, Hb. reflexivity.
Qed.
Theorem C70_only_init : forall E w o v es w',
  env_ok E -> reachable E w -> op_wf o -> step E w o = Some (v, es, w') -> (forall r, o <> OInit r) ->
  ~ In RSetHandler es /\ (forall s, ~ In (RRand s) es) /\ (forall s, ~ In (LSrand s) es).
Proof.
  intros E w o v es w' HE Hr Hw H Ho.
  destruct (step_boot E w o v es w' HE (reach_Inv E w HE Hr) Hw H Ho) as (A & _).
  assert (G : forall e, is_boot e = true -> ~ In e es).
  { intros e He Hi. assert (existsb is_boot es = true) by (apply existsb_exists; exists e; auto). congruence. }
  repeat split; intros; apply G; reflexivity.
Qed.
Print Assumptions C70_only_init.
Theorem C70_draws_seeded : forall E ops tr w pre r post,
  env_ok E -> Forall op_wf ops -> exec E world0 ops tr w ->
  all_evs tr = pre ++ LRand r :: post -> seeded pre.
Proof.
  intros E ops tr w pre r post HE Hw Hx.
  assert (G : (uw_state (stk w) <> NOT_INIT -> seeded (all_evs tr)) /\
    (forall pre r post, all_evs tr = pre ++ LRand r :: post -> seeded pre)).
  2: { exact (proj2 G pre r post). }
  clear pre r post. revert ops tr w Hw Hx.
  apply (exec_snoc_ind E (fun tr w => (uw_state (stk w) <> NOT_INIT -> seeded (all_evs tr)) /\
    (forall pre r post, all_evs tr = pre ++ LRand r :: post -> seeded pre)) HE).
  - split; [cbn; congruence|]. intros pre r post H. destruct pre; discriminate H.
  - intros ops tr w o v es w' Hw Hx HI Hr (I1 & I2) Ho Hs. unfold all_evs in *. rewrite flat_map_app. cbn [flat_map app snd evs_of]. rewrite app_nil_r.
    assert (D : (exists rg, o = OInit rg) \/ (forall rg, o <> OInit rg)) by (destruct o; eauto; right; discriminate).
    destruct D as [[rg ->]|D].
    + destruct (C70_init E w rg v es w' HE Hr Hs) as (_ & s & ->). split.
      * intros _. exists (all_evs tr), s, []. split; reflexivity.
      * intros pre r post H. apply app_eq_app in H. destruct H as (l & [(A & B)|(A & B)]).
        -- destruct l as [|e l]; [discriminate B|]. injection B as <- B. apply (I2 pre r l). exact A.
        -- exfalso. destruct l as [|e0 [|e1 [|e2 [|e3 l]]]]; discriminate B.
    + destruct (step_boot E w o v es w' HE HI Ho Hs D) as (A1 & A2 & A3). apply boot_seed in A1. split.
      * intro N. apply seeded_app; auto.
      * intros pre r post H. apply app_eq_app in H. destruct H as (l & [(A & B)|(A & B)]).
        -- destruct l as [|e l]; [|injection B as <- B; apply (I2 pre r l); exact A].
           cbn in B. rewrite app_nil_r in A. subst pre. apply I1, A2. rewrite <- B. reflexivity.
        -- subst pre es. rewrite !existsb_app in *. cbn [existsb is_draw] in A2. rewrite orb_true_r in A2.
           apply orb_false_iff in A1. apply seeded_app; [apply I1, A2; reflexivity|apply A1].
Qed.
Print Assumptions C70_draws_seeded.
Example C70_case : run_of (demo [77] []) [] [OInit EU868; OSetSession 287454020 5 3 k1 k2; OSend 3 [1;2] false]
  (fun w tr w' => match all_evs tr with RSetHandler :: RRand a :: LSrand b :: LRand _ :: _ => (a =? b) | _ => false end).
Proof. show_run. Qed.
