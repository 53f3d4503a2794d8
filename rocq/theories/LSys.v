(** LSys.v -- the order and the arguments of the stack's calls to the radio *)
From Verif Require Export SpecSys LWin.
From Verif Require Import LWin2 LUp4 Prop_Uplink Prop_App.

(** what was set last and whether setup() was the last thing to change the mode *)
Record ask := Mk_ask { q_freq : option Z; q_par : option params; q_power : option Z; q_ready : bool }.
Definition ask0 : ask := Mk_ask None None None false.
Definition ask_step (q : ask) (e : ev) : ask :=
  match e with
  | RSetFreq f => Mk_ask (Some f) (q_par q) (q_power q) (q_ready q)
  | RSetup p => Mk_ask (q_freq q) (Some p) (q_power q) true
  | RSetPower p => Mk_ask (q_freq q) (q_par q) (Some p) (q_ready q)
  | RTx _ | RRx _ _ _ | RSleep | RRand _ => Mk_ask (q_freq q) (q_par q) (q_power q) false
  | _ => q
  end.
Definition asks (q : ask) (es : list ev) : ask := fold_left ask_step es q.
Definition legal (q : ask) : Prop := exists f, q_freq q = Some f /\ 860000000 <= f <= 870000000.
Definition set_to (iq : bool) (q : ask) : Prop := exists dr, 0 <= dr < 6 /\ q_par q = Some (lora dr iq).
Definition good (q : ask) (e : ev) : Prop :=
  match e with
  | RSetFreq f => 860000000 <= f <= 870000000
  | RSetup p => exists dr iq, 0 <= dr < 6 /\ p = lora dr iq
  | RSetPower p => -128 <= p < 128
  | RTx b => bytes_ok b /\ len b <= 255 /\ legal q /\ set_to false q /\ (exists p, q_power q = Some p) /\ q_ready q = true
  | RRx n symb t => n = 255 /\ symb = 8 /\ t = 0 /\ legal q /\ set_to true q
  | _ => True
  end.
Fixpoint safe (q : ask) (es : list ev) : Prop :=
  match es with [] => True | e :: es' => good q e /\ safe (ask_step q e) es' end.
Lemma asks_app q a b : asks q (a ++ b) = asks (asks q a) b. Proof. apply fold_left_app. Qed.
Lemma safe_app q a b : safe q (a ++ b) <-> safe q a /\ safe (asks q a) b.
Proof. revert q. induction a as [|e a IH]; intro q; cbn [app safe]; [tauto|]. rewrite IH. unfold asks. cbn [fold_left]. tauto. Qed.
(** events that are not calls to the radio do not matter *)
Lemma asks_filter q es : asks q (filter asks_radio es) = asks q es.
Proof. revert q. unfold asks. induction es as [|e es IH]; intro q; [reflexivity|]. cbn [filter fold_left]. destruct (asks_radio e) eqn:A; [apply IH|]. destruct e; try discriminate A; apply IH. Qed.
Lemma safe_filter q es : safe q (filter asks_radio es) <-> safe q es.
Proof.
  revert q. induction es as [|e es IH]; intro q; [reflexivity|]. cbn [filter safe]. destruct (asks_radio e) eqn:A; [cbn [safe]; rewrite IH; reflexivity|].
  rewrite IH. destruct e; try discriminate A; cbn; tauto.
Qed.
Lemma doings_filter es : forall f p x, doings f p x (filter asks_radio es) = doings f p x es.
Proof. induction es as [|e es IH]; intros f p x; [reflexivity|]. destruct e; cbn [filter asks_radio doings]; rewrite ?IH; reflexivity. Qed.
(** the calls among [link] *)
Definition seeds (e : ev) : bool := match e with RRand _ | RSetHandler => true | _ => false end.
Lemma filter_link es : existsb is_boot es = false -> filter asks_radio es = filter asks_radio (link es).
Proof.
  unfold link. induction es as [|e es IH]; intro A; [reflexivity|]. cbn [existsb] in A. apply Bool.orb_false_iff in A as [A1 A2]. specialize (IH A2).
  destruct e; cbn [filter is_link asks_radio] in *; try discriminate A1; rewrite ?IH; reflexivity.
Qed.
Lemma filter_times ts : filter asks_radio (map MGetTime ts) = []. Proof. induction ts; auto. Qed.
Definition tuned_in (q : ask) (w : world) : Prop := st_phase w = P_rx1 \/ st_phase w = P_rx2 -> legal q /\ set_to true q.
Definition tuned_up (q : ask) (w : world) : Prop := st_phase w = P_tx -> legal q.
Lemma frame_bytes E w o v es w' f : env_ok E -> Inv (w_st w) -> op_wf o -> step E w o = Some (v, es, w') -> In f (tx_frames es) -> bytes_ok f.
Proof.
  intros HE HI Hw H Hin. pose proof (step_tx E w o v es w' HE HI Hw H) as T. destruct T as [p d c h1 s1 S|A B C D F G|A B].
  - destruct (sent_obs _ _ _ _ _ _ _ _ _ _ _ _ S) as (Ht & _). rewrite Ht in Hin. destruct Hin as [<-|[]]. destruct S. apply uplink_frame_bytes; assumption.
  - subst es. rewrite (proj1 (join_obs E _ _)) in Hin. destruct Hin as [<-|[]]. apply join_bytes_ok; assumption.
  - rewrite A in Hin. destruct Hin.
Qed.
Lemma s8_range x : -128 <= s8 x < 128. Proof. unfold s8. pose proof (Z.mod_pos_bound x 256 ltac:(lia)). destruct (_ <? _) eqn:Q; lia. Qed.
Lemma safe_link q es l : existsb is_boot es = false -> link es = l -> (safe q es <-> safe q l) /\ asks q es = asks q l.
Proof.
  intros B <-. pose proof (filter_link es B) as F. split.
  - rewrite <- (safe_filter q es), F. apply safe_filter.
  - rewrite <- (asks_filter q es), F. apply asks_filter.
Qed.
Lemma safe_times ts : forall q, safe q (map MGetTime ts). Proof. induction ts; cbn; auto. Qed.
Lemma asks_times ts : forall q, asks q (map MGetTime ts) = q. Proof. induction ts; auto. Qed.
Definition tuned_to (q : ask) (w : world) : Prop := tuned_in q w /\ tuned_up q w.
Lemma tuned_off q w : st_phase w = P_idle \/ st_phase w = P_off -> tuned_to q w.
Proof. intros [Q|Q]; unfold tuned_to, tuned_in, tuned_up; rewrite Q; (split; [intros [X|X]; discriminate X|intro X; discriminate X]). Qed.
Lemma rx2_legal w : Inv (w_st w) -> st_phase w = P_rx1 -> 860000000 <= uw_rx2_frequency (stk w) <= 870000000.
Proof.
  intros HI P. destruct (tk_rx2f _ (iv_stk _ HI)) as [Z|Z]; [|exact Z]. exfalso. destruct (tk_init _ (iv_stk _ HI)) as (_ & N & _); [|exact (N Z)].
  unfold st_phase, ph, stk in P. intro Q. rewrite Q in P. discriminate P.
Qed.
Lemma rx1_lora w : Inv (w_st w) -> st_phase w = P_tx -> exists dr, 0 <= dr < 6 /\ rx1_params (w_st w) = lora dr true.
Proof.
  intros HI P. assert (T : uw_state (s_stk (w_st w)) = TX) by (unfold st_phase, ph, stk in P; destruct (uw_state _); try discriminate P; reflexivity).
  pose proof (rx1_params_ok (w_st w) HI T) as (A1 & A2 & A3 & A4 & A5 & A6 & A7). exists (6 - p_sf (rx1_params (w_st w))). split; [lia|].
  destruct (rx1_params (w_st w)) as [a b c d e g i]. cbn [p_sf p_bw p_cr p_preamble_len p_crc_on p_inverted_iq p_implicit_header] in *. subst. unfold lora, dr_sf. f_equal. lia.
Qed.
Lemma tx_lora E w o v es w' f : env_ok E -> Inv (w_st w) -> op_wf o -> step E w o = Some (v, es, w') -> In f (tx_frames es) ->
  exists fr p dr, link es = [RSetFreq fr; RSetup (lora dr false); RSetPower p; RTx f] /\ 860000000 <= fr <= 870000000 /\ -128 <= p < 128 /\ 0 <= dr < 6.
Proof.
  intros HE HI Hw H Hin. destruct (step_transmits E w o v es w' HE HI Hw H) as (i & f' & Hi & On & Fr & pre & mid & -> & Np & Nm); [intro Q; rewrite Q in Hin; destruct Hin|].
  assert (L : forall x, forallb off_radio x = true -> link x = []) by (clear; induction x as [|e x IH]; [reflexivity|]; cbn [forallb]; intro A; apply Bool.andb_true_iff in A as [A1 A2]; destruct e; try discriminate A1; cbn; apply IH, A2).
  assert (N : forall x, forallb off_radio x = true -> tx_frames x = []) by (clear; induction x as [|e x IH]; [reflexivity|]; cbn [forallb]; intro A; apply Bool.andb_true_iff in A as [A1 A2]; destruct e; try discriminate A1; cbn; apply IH, A2).
  rewrite !tx_frames_app, (N _ Np), (N _ Nm) in Hin. cbn in Hin. destruct Hin as [<-|[]].
  set (dr := match o with OJoin => _ | _ => _ end). exists (chan_freq w i), (s8 (default_max_eirp (stk w) - 2 * uw_tx_power (stk w))), dr.
  split; [rewrite !link_app, (L _ Np), (L _ Nm); reflexivity|]. split; [exact Fr|]. split; [apply s8_range|].
  subst dr. pose proof (tk_ddr _ (iv_stk _ HI)) as D1. fold (stk w) in D1. assert (D2 : 0 <= up_dr w < 6) by (unfold up_dr, ses; pose proof (sk_dr _ (iv_ses _ HI)); destruct (adr_on w); lia). destruct o; assumption.
Qed.
Lemma step_safe E w o v es w' q : env_ok E -> reachable E w -> op_wf o -> step E w o = Some (v, es, w') -> tuned_to q w -> safe q es /\ tuned_to (asks q es) w'.
Proof.
  intros HE Hr Hw H (Ti & Tu). pose proof (reach_Inv E w HE Hr) as HI.
  assert (B : (forall r, o <> OInit r) -> existsb is_boot es = false) by (intro N; apply (step_boot E w o v es w' HE HI Hw H N)).
  pose proof (fun f => tx_lora E w o v es w' f HE HI Hw H) as TL. pose proof (fun f => frame_bytes E w o v es w' f HE HI Hw H) as FB. pose proof (fun f => C04_frame_size E w o v es w' f HE Hr Hw H) as FS.
  destruct (step_win E w o v es w' HE HI Hw H) as [r A Bl C|fr pw f A B1 C D F G _ _ _|m ts A B1 C D F G K _|m A B1 C D F G K _|m pre rd e t vw A B1 C D N1 N2 F G J _|t A B1 D C F|A B1 N1 N2 N3 N4].
  - subst o. destruct (step_init E w r v es w' HI H) as (_ & _ & ->). split; [cbn; auto|]. apply tuned_off. auto.
  - assert (Fi : In f (tx_frames es)) by (rewrite <- tx_of_link, F; left; reflexivity).
    destruct (TL f Fi) as (fr' & p' & dr & L & Lf & Lp & Ld). destruct (safe_link q es _ (B ltac:(intros r ->; destruct A as [A|A]; discriminate A)) L) as (-> & ->).
    pose proof (FB f Fi). pose proof (FS f Fi). split.
    + cbn [safe good ask_step q_freq q_par q_power q_ready]. split; [exact Lf|]. split; [eauto|]. split; [exact Lp|]. split; [|exact I].
      split; [assumption|]. split; [lia|]. split; [exists fr'; auto|]. split; [exists dr; auto|]. split; [eexists; reflexivity|reflexivity].
    + unfold asks. cbn [fold_left ask_step q_freq q_par q_power q_ready]. split; [unfold tuned_in; rewrite D; intros [X|X]; discriminate X|intros _; exists fr'; auto].
  - destruct (safe_link q es _ (B ltac:(subst o; discriminate)) G) as (-> & ->). destruct (rx1_lora w HI C) as (dr & Ld & ->).
    rewrite safe_app, asks_app, asks_times. split.
    + split; [cbn [safe good]; eauto 8|apply safe_times].
    + unfold asks. cbn [fold_left ask_step q_freq q_par q_power q_ready]. split; [|unfold tuned_up; rewrite F; discriminate].
      intros _. split; [apply (Tu C)|]. exists dr. auto.
  - subst es. pose proof (rx2_legal w HI C) as Lf. pose proof (tk_rx2dr _ (iv_stk _ HI)) as Ld. fold (stk w) in Ld. split.
    + cbn [safe good]. eauto 8.
    + unfold asks. cbn [fold_left ask_step q_freq q_par q_power q_ready]. split; [|unfold tuned_up; rewrite F; discriminate].
      intros _. split; [eexists; split; [reflexivity|exact Lf]|eexists; split; [exact Ld|reflexivity]].
  - subst es. assert (Bp : existsb is_boot pre = false) by (specialize (B ltac:(subst o; discriminate)); rewrite existsb_app in B; apply Bool.orb_false_iff in B; apply B).
    rewrite safe_app. destruct (safe_link q pre _ Bp G) as (-> & _). split; [|apply tuned_off; auto].
    split; [|cbn; auto]. rewrite safe_app. unfold rx_pre. split; [destruct (uw_state _); cbn; auto|]. rewrite safe_app. destruct J as [(-> & _)|(-> & _)]; cbn; auto.
  - subst es. split.
    + cbn [safe good]. split; [|exact I]. destruct (Ti ltac:(tauto)) as (T1 & T2). auto.
    + assert (Pe : st_phase w' = st_phase w) by (unfold st_phase, ph, stk; rewrite D; reflexivity). unfold asks. cbn [fold_left ask_step].
      split; [|unfold tuned_up; rewrite Pe; destruct C as [(C & _)|(C & _)]; rewrite C; discriminate]. intros _. destruct (Ti ltac:(tauto)) as ((f & T1) & (d & T2)). split; [exists f; exact T1|exists d; exact T2].
  - destruct (safe_link q es _ (B N1) A) as (-> & ->). split; [exact I|]. unfold tuned_to, tuned_in, tuned_up, asks. cbn [fold_left].
    assert (Pe : st_phase w' = st_phase w) by (destruct B1; unfold st_phase; rewrite sp_state; reflexivity). rewrite Pe. auto.
Qed.
Theorem run_safe E ops tr w : env_ok E -> Forall op_wf ops -> exec E world0 ops tr w -> safe ask0 (filter asks_radio (all_evs tr)).
Proof.
  intros HE Ho Hx. rewrite safe_filter.
  enough (G : safe ask0 (all_evs tr) /\ tuned_to (asks ask0 (all_evs tr)) w) by apply G. revert ops tr w Ho Hx.
  apply (exec_snoc_ind E (fun tr w => safe ask0 (all_evs tr) /\ tuned_to (asks ask0 (all_evs tr)) w) HE).
  - split; [exact I|]. apply tuned_off. right. reflexivity.
  - intros ops tr w o v es w' _ _ _ Hr (IS & IT) Hw H. destruct (step_safe E w o v es w' _ HE Hr Hw H IT) as (S & T).
    assert (X : all_evs (tr ++ [(o, v, es)]) = all_evs tr ++ es) by (unfold all_evs; rewrite flat_map_app; cbn [flat_map evs_of snd]; rewrite app_nil_r; reflexivity).
    rewrite X, safe_app, asks_app. auto.
Qed.

(** ** the driver, called by the stack *)
Definition by_stack (t : rentry) : bool := negb (beside (fst (fst t))).
Lemma good_wf q e o v l : good q e -> served e (o, v, l) -> rop_wf o.
Proof.
  intros G S. inversion S; subst; cbn [good rop_wf] in *; try exact I.
  - lia.
  - destruct G as (dr & iq & D & ->). unfold params_wf, lora, dr_sf. cbn [p_sf p_bw p_cr p_preamble_len]. lia.
  - exact G.
  - tauto.
  - destruct G as (-> & -> & -> & _). cbv; intuition discriminate.
  - cbv; intuition discriminate.
Qed.
Lemma drives_wf q es dtr : safe q es -> Forall2 served es (filter by_stack dtr) -> Forall (fun t => rop_wf (fst (fst t))) dtr.
Proof.
  revert q es. induction dtr as [|[[o v] l] dtr IH]; intros q es S F; [constructor|]. cbn [filter] in F. unfold by_stack at 1 in F. cbn [fst] in F. destruct (beside o) eqn:B; cbn [negb] in F.
  - constructor; [destruct o; try discriminate B; exact I|]. eapply IH; eassumption.
  - inversion F as [|e t es' dtr' Se F' E1 E2]; subst. destruct S as (G & S). constructor; [eapply good_wf; eassumption|]. eapply IH; eassumption.
Qed.
Definition rel (can : Z -> bool) (q : ask) (w : want) : Prop :=
  w_up w = true /\ w_pub w = true /\ w_freq w = q_freq q /\ w_par w = q_par q /\ (q_ready q = true -> w_ready w = true) /\
  (forall p, q_power q = Some p -> can p = true -> w_dbm w = Some p).
Lemma rel_beside can q w o v : rel can q w -> beside o = true -> rel can q (see w o v).
Proof. intros R B. destruct o as [| | | |[|]| | | | | | |]; try discriminate B; unfold rel, see in *; cbn [w_up w_ready w_freq w_dbm w_par w_pub]; tauto. Qed.
Lemma rel_step can q w e o v l : rel can q w -> served e (o, v, l) -> (forall p, e = RSetPower p -> can p = true -> v = RvBool true) -> rel can (ask_step q e) (see w o v).
Proof.
  intros (R1 & R2 & R3 & R4 & R5 & R6) S P. unfold rel. inversion S as [| | | |p' v' l'| | | |]; subst; try (cbn; rewrite ?R3, ?R4; repeat split; auto; discriminate).
  destruct v as [|[|]| |]; cbn; (repeat (split; [auto; fail|])); intros p2 Q C; injection Q as <-; try reflexivity; specialize (P _ eq_refl C); discriminate P.
Qed.
(** what is set, and what a call adds *)
Record cur := Mk_cur { u_freq : Z; u_par : params; u_power : Z }.
Definition cur_step (u : cur) (e : ev) : cur :=
  match e with
  | RSetFreq f => Mk_cur f (u_par u) (u_power u)
  | RSetup p => Mk_cur (u_freq u) p (u_power u)
  | RSetPower x => Mk_cur (u_freq u) (u_par u) x
  | _ => u
  end.
Definition adds (u : cur) (e : ev) : list doing :=
  match e with
  | RTx b => [Send (u_freq u) (u_par u) (u_power u) b]
  | RRx n symb t => [Hear (u_freq u) (u_par u) n symb t]
  | RRand _ => [Noise]
  | _ => []
  end.
Lemma doings_snoc es e : forall u, doings (u_freq u) (u_par u) (u_power u) (es ++ [e]) = doings (u_freq u) (u_par u) (u_power u) es ++ adds (fold_left cur_step es u) e.
Proof.
  induction es as [|x es IH]; intro u.
  - destruct e; reflexivity.
  - cbn [app fold_left]. specialize (IH (cur_step u x)). destruct x; cbn [cur_step u_freq u_par u_power] in IH; cbn [doings cur_step]; rewrite IH; reflexivity.
Qed.
Definition cur0 : cur := Mk_cur 0 no_params 0.
Lemma cur_asks es : let u := fold_left cur_step es cur0 in let q := asks ask0 es in
  (forall f, q_freq q = Some f -> u_freq u = f) /\ (forall p, q_par q = Some p -> u_par u = p) /\ (forall x, q_power q = Some x -> u_power u = x).
Proof.
  cbv zeta. induction es as [|e es IH] using rev_ind; [repeat split; intros ? Q; discriminate Q|]. unfold asks in *. rewrite !fold_left_app. cbn [fold_left].
  destruct IH as (I1 & I2 & I3). destruct e; cbn [cur_step ask_step u_freq u_par u_power q_freq q_par q_power]; repeat split; intros ? Q; auto; injection Q as <-; reflexivity.
Qed.
(** a served run, one call longer *)
Lemma filter_snoc (tr : list rentry) t : filter by_stack (tr ++ [t]) = filter by_stack tr ++ (if by_stack t then [t] else []).
Proof. rewrite filter_app. cbn [filter]. destruct (by_stack t); reflexivity. Qed.
Lemma served_snoc es tr t : by_stack t = true -> Forall2 served es (filter by_stack (tr ++ [t])) -> exists es' e, es = es' ++ [e] /\ Forall2 served es' (filter by_stack tr) /\ served e t.
Proof.
  intros B F. rewrite filter_snoc, B in F. apply Forall2_app_inv_r in F as (a & b & F1 & F2 & ->). inversion F2 as [|e t' b' ? Se F3 E1 E2]; subst. inversion F3; subst. eauto.
Qed.
Lemma lora_air dr iq p m : 0 <= dr < 6 -> p = lora dr iq -> m_lora m = true -> modulation p m -> m_preamble m = 8 -> m_sync m = 52 -> m_ldro m = (5 <=? p_sf p) -> lorawan dr (negb iq) m.
Proof.
  intros D -> L (M1 & M2 & M3 & M4 & M5 & M6) P S LD. unfold lorawan. cbn [lora p_sf p_bw p_cr p_implicit_header p_crc_on p_inverted_iq] in *. unfold dr_sf in *.
  rewrite M1, M2, M3, M4, M5, M6, L, P, S, LD, Bool.negb_involutive. repeat split; try lia. 
Qed.
(** ** What is asked is what is meant *)
Lemma doings_app a b : forall u, doings (u_freq u) (u_par u) (u_power u) (a ++ b) =
  doings (u_freq u) (u_par u) (u_power u) a ++ (let u' := fold_left cur_step a u in doings (u_freq u') (u_par u') (u_power u') b).
Proof.
  induction a as [|x a IH]; intro u; [reflexivity|]. cbn [app fold_left]. specialize (IH (cur_step u x)). destruct x; cbn [cur_step u_freq u_par u_power] in IH; cbn [doings cur_step]; rewrite IH; reflexivity.
Qed.
Lemma cur_filter es : forall u, fold_left cur_step (filter asks_radio es) u = fold_left cur_step es u.
Proof. induction es as [|e es IH]; intro u; [reflexivity|]. destruct e; cbn [filter asks_radio fold_left cur_step]; apply IH. Qed.
Lemma on_link u es l : existsb is_boot es = false -> link es = l ->
  doings (u_freq u) (u_par u) (u_power u) es = doings (u_freq u) (u_par u) (u_power u) l /\ fold_left cur_step es u = fold_left cur_step l u.
Proof.
  intros B <-. pose proof (filter_link es B) as F. split.
  - rewrite <- (doings_filter es), F. apply doings_filter.
  - rewrite <- (cur_filter es), F. apply cur_filter.
Qed.
Lemma int8 x : (x + 128) mod 256 - 128 = s8 x.
Proof.
  unfold s8. pose proof (Z.div_mod x 256 ltac:(lia)) as D. pose proof (Z.mod_pos_bound x 256 ltac:(lia)) as B.
  destruct (x mod 256 <? 128) eqn:Q.
  - assert (X : (x + 128) mod 256 = x mod 256 + 128) by (symmetry; apply (Z.mod_unique_pos _ _ (x / 256)); lia). lia.
  - assert (X : (x + 128) mod 256 = x mod 256 - 128) by (symmetry; apply (Z.mod_unique_pos _ _ (x / 256 + 1)); lia). lia.
Qed.
Lemma tx_dbm E w o v es w' f : env_ok E -> Inv (w_st w) -> op_wf o -> step E w o = Some (v, es, w') -> In f (tx_frames es) ->
  exists fr, link es = [RSetFreq fr; RSetup (lora (send_dr o w) false); RSetPower (send_dbm w); RTx f].
Proof.
  intros HE HI Hw H Hin. destruct (step_transmits E w o v es w' HE HI Hw H) as (i & f' & Hi & On & Fr & pre & mid & -> & Np & Nm); [intro Q; rewrite Q in Hin; destruct Hin|].
  assert (L : forall x, forallb off_radio x = true -> link x = []) by (clear; induction x as [|e x IH]; [reflexivity|]; cbn [forallb]; intro A; apply Bool.andb_true_iff in A as [A1 A2]; destruct e; try discriminate A1; cbn; apply IH, A2).
  assert (N : forall x, forallb off_radio x = true -> tx_frames x = []) by (clear; induction x as [|e x IH]; [reflexivity|]; cbn [forallb]; intro A; apply Bool.andb_true_iff in A as [A1 A2]; destruct e; try discriminate A1; cbn; apply IH, A2).
  rewrite !tx_frames_app, (N _ Np), (N _ Nm) in Hin. cbn in Hin. destruct Hin as [<-|[]]. exists (chan_freq w i).
  rewrite !link_app, (L _ Np), (L _ Nm). unfold send_dbm. rewrite int8. reflexivity.
Qed.
Lemma rx1_aim w d : pkt_params (stk w) = lora d false -> rx1_params (w_st w) = lora (rx1_rate w d) true.
Proof.
  intro P. unfold rx1_params, rx1_rate, rx1_dr. fold (stk w). rewrite P. destruct (uw_rx1_offset (stk w) =? 0); reflexivity.
Qed.
Definition aimed (win : Z * Z) (w : world) (u : cur) : Prop :=
  (st_phase w = P_tx -> u_freq u = fst win /\ pkt_params (stk w) = lora (snd win) false) /\
  (st_phase w = P_rx1 \/ st_phase w = P_rx2 -> u_freq u = fst win /\ u_par u = lora (snd win) true).
Lemma step_meant E w o v es w' win u : env_ok E -> reachable E w -> op_wf o -> step E w o = Some (v, es, w') -> aimed win w u ->
  doings (u_freq u) (u_par u) (u_power u) es = does w (st_phase w) win (o, v, es) /\ aimed (aims w (st_phase w) win (o, v, es)) w' (fold_left cur_step es u).
Proof.
  intros HE Hr Hw H (At & Ar). pose proof (reach_Inv E w HE Hr) as HI.
  assert (B : (forall r, o <> OInit r) -> existsb is_boot es = false) by (intro N; apply (step_boot E w o v es w' HE HI Hw H N)).
  pose proof (step_transmits E w o v es w' HE HI Hw H) as TR.
  destruct (step_win E w o v es w' HE HI Hw H) as [r A Bl C|fr pw f A B1 C D F G _ _ _|m ts A B1 C D F G K _|m A B1 C D F G K _|m pre rd e t vw A B1 C D N1 N2 F G J _|t A B1 D C F|A B1 N1 N2 N3 N4].
  - subst o. destruct (step_init E w r v es w' HI H) as (_ & _ & ->). split; [destruct (st_phase w); reflexivity|]. unfold aimed. rewrite C. split; [discriminate|intros [X|X]; discriminate X].
  - assert (U : is_up o = true) by (destruct A as [->|A]; [reflexivity|destruct o; try discriminate A; reflexivity]). subst v.
    assert (NI : forall r, o <> OInit r) by (intros r ->; discriminate U).
    assert (NT : forall t, o <> OTimer t) by (intros r ->; discriminate U). assert (NQ : forall m, o <> OIrq m) by (intros r ->; discriminate U).
    assert (Fr : freqs es = [fr]) by (rewrite <- freqs_link, F; reflexivity). assert (Tx : tx_frames es = [f]) by (rewrite <- tx_of_link, F; reflexivity).
    destruct (tx_dbm E w o _ es w' f HE HI Hw H) as (fr' & L); [rewrite Tx; left; reflexivity|]. assert (X : fr' = fr) by (rewrite F in L; injection L; congruence). subst fr'.
    assert (Dw : does w (st_phase w) win (o, VErr ERR_NO, es) = [Send fr (lora (send_dr o w) false) (send_dbm w) f]) by (unfold does; rewrite Fr, Tx, C; destruct o; try discriminate U; reflexivity).
    assert (Aw : aims w (st_phase w) win (o, VErr ERR_NO, es) = (fr, send_dr o w)) by (unfold aims; rewrite Fr, C; destruct o; try discriminate U; reflexivity).
    rewrite Dw, Aw. destruct (on_link u es _ (B NI) L) as (-> & ->). split; [reflexivity|]. unfold aimed. rewrite D. split; [intros _; split; [reflexivity|exact G]|intros [Q|Q]; discriminate Q].
  - subst o. destruct (on_link u es _ (B ltac:(discriminate)) G) as (-> & ->). destruct (At C) as (At1 & At2).
    assert (T : forall ts x, doings (u_freq x) (u_par x) (u_power x) (map MGetTime ts) = [] /\ fold_left cur_step (map MGetTime ts) x = x) by (clear; intros ts x; induction ts as [|y ts (I1 & I2)]; [split; reflexivity|]; cbn; auto).
    rewrite doings_app, fold_left_app. cbv zeta. destruct (T ts (fold_left cur_step [TStart TIMER_RX1 (uw_rx1_delay (stk w)); TStart TIMER_RX2 (uw_rx2_delay (stk w)); RSetup (rx1_params (w_st w))] u)) as (-> & ->).
    unfold does, aims. rewrite C. cbn [is_up is_uplink_call andb]. rewrite D. split; [reflexivity|]. unfold aimed. rewrite F. split; [discriminate|]. intros _. cbn [fold_left cur_step u_freq u_par fst snd]. split; [exact At1|]. apply rx1_aim, At2.
  - subst o es. unfold does, aims. rewrite C, D. split; [reflexivity|]. unfold aimed. rewrite F. split; [discriminate|]. intros _. split; reflexivity.
  - subst o es. assert (Bp : existsb is_boot pre = false) by (specialize (B ltac:(discriminate)); rewrite existsb_app in B; apply Bool.orb_false_iff in B; apply B).
    assert (Z1 : doings (u_freq u) (u_par u) (u_power u) (pre ++ [CbDown e t vw]) = []).
    { rewrite doings_app. destruct (on_link u pre _ Bp G) as (-> & ->). cbv zeta. unfold rx_pre. destruct J as [(-> & _)|(-> & _)]; destruct (uw_state _); reflexivity. }
    rewrite Z1. split; [reflexivity|]. unfold aimed. rewrite D. split; [discriminate|intros [X|X]; discriminate X].
  - subst o es v. assert (Pe : st_phase w' = st_phase w) by (unfold st_phase, ph, stk; rewrite D; reflexivity). assert (Pr : st_phase w = P_rx1 \/ st_phase w = P_rx2) by tauto. destruct (Ar Pr) as (A1 & A2).
    split; [cbn [doings]; rewrite A1, A2; destruct C as [(-> & ->)|(-> & ->)]; reflexivity|]. unfold aimed. rewrite Pe. replace (aims w (st_phase w) win (OTimer t, VUnit, [RRx 255 8 0])) with win by (destruct (st_phase w); reflexivity).
    cbn [fold_left cur_step]. split; [destruct Pr as [-> | ->]; discriminate|]. auto.
  - destruct (on_link u es _ (B N1) A) as (-> & ->). assert (Pe : st_phase w' = st_phase w) by (destruct B1; unfold st_phase; rewrite sp_state; reflexivity).
    assert (Pm : pkt_params (stk w') = pkt_params (stk w)) by (destruct B1; assumption).
    assert (NE : is_up o && no_error v = false).
    { destruct (is_up o) eqn:U; [|reflexivity]. cbn [andb]. destruct v as [| | |[]]; try reflexivity. exfalso. apply N4; [|reflexivity]. destruct o; try discriminate U; auto. }
    assert (Z1 : does w (st_phase w) win (o, v, es) = []).
    { unfold does. destruct o; try (rewrite NE; destruct (st_phase w); reflexivity); [destruct (N1 r eq_refl)|]. rewrite NE. destruct (N3 t eq_refl) as (_ & Nt). destruct t, (st_phase w) eqn:Q; try reflexivity; exfalso; apply Nt; auto. }
    assert (Z2 : aims w (st_phase w) win (o, v, es) = win).
    { unfold aims. destruct o; try (rewrite NE; destruct (st_phase w); reflexivity). rewrite NE. destruct (N2 mask eq_refl) as (_ & [Q|[Q|[(Q & Q1)|([Q|Q] & Q1 & _)]]]); rewrite Q; try rewrite Q1; reflexivity. }
    rewrite Z1, Z2. split; [reflexivity|]. unfold aimed in *. rewrite Pe, Pm. cbn [fold_left]. split; assumption.
Qed.
Lemma run_meant E ops tr w : env_ok E -> Forall op_wf ops -> exec E world0 ops tr w -> exists win, meant E tr w win (asked_of tr) /\ aimed win w (fold_left cur_step (all_evs tr) cur0).
Proof.
  intro HE. revert ops tr w. apply (exec_snoc_ind E (fun tr w => exists win, meant E tr w win (asked_of tr) /\ aimed win w (fold_left cur_step (all_evs tr) cur0)) HE).
  - exists (0, 0). split; [constructor|]. split; [discriminate|intros [X|X]; discriminate X].
  - intros ops tr w o v es w' Ho Hx HI Hr (win & M & A) Hw H. destruct (step_meant E w o v es w' win _ HE Hr Hw H A) as (S1 & S2).
    rewrite (phase_sound E ops tr w HE Ho Hx) in S1, S2. pose proof (doings_app (all_evs tr) es cur0) as X. cbv zeta in X. rewrite S1 in X.
    assert (A1 : all_evs (tr ++ [(o, v, es)]) = all_evs tr ++ es) by (unfold all_evs; rewrite flat_map_app; cbn [flat_map evs_of snd]; rewrite app_nil_r; reflexivity).
    assert (Y : asked_of (tr ++ [(o, v, es)]) = asked_of tr ++ does w (phase_of tr) win (o, v, es)) by (unfold asked_of; rewrite A1; exact X).
    eexists. rewrite Y, A1, fold_left_app. split; [apply meant_S; eassumption|exact S2].
Qed.
