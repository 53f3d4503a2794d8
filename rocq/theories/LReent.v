(** LReent.v -- lemmas about handlers that call the API (for C90) *)
From Verif Require Import SpecReent PStrict.
Open Scope m_scope.

Lemma bind_ext {A B} (m m' : C A) (f f' : A -> C B) h s : m h s = m' h s ->
  (forall a s1 e1, m' h s = Ok (a, s1, e1) -> f a (h ++ e1) s1 = f' a (h ++ e1) s1) -> bind m f h s = bind m' f' h s.
Proof.
  intros H1 H2. unfold bind. rewrite H1. destruct (m' h s) as [[[a s1] e1]|]; [|reflexivity].
  rewrite (H2 a s1 e1 eq_refl). reflexivity.
Qed.

(** ** What leaves the buffer alone *)
Definition keep {A} (m : C A) : Prop := forall h s a s' es, m h s = Ok (a, s', es) -> frame s' = frame s.
Lemma keep_ret {A} (a : A) : keep (ret a).
Proof. intros h s r s' es H. injection H as _ <- _. reflexivity. Qed.
Lemma keep_fail {A} k : keep (@fail st ev A k).
Proof. intros h s r s' es H. discriminate H. Qed.
Lemma keep_gets {A} (f : st -> A) : keep (gets f).
Proof. intros h s r s' es H. injection H as _ <- _. reflexivity. Qed.
Lemma keep_emit e : keep (emit e).
Proof. intros h s r s' es H. inversion H. reflexivity. Qed.
Lemma keep_query {A} (o : list ev -> A) k : keep (query o k).
Proof. intros h s r s' es H. inversion H. reflexivity. Qed.
Lemma keep_modify f : (forall s, frame (f s) = frame s) -> keep (@modify st ev f).
Proof. intros K h s r s' es H. inversion H. apply K. Qed.
Lemma keep_bind {A B} (m : C A) (f : A -> C B) : keep m -> (forall a, keep (f a)) -> keep (bind m f).
Proof.
  intros Hm Hf h s r s' es H. unfold bind in H. destruct (m h s) as [[[x s1] e1]|] eqn:Em; [|discriminate].
  destruct (f x (h ++ e1) s1) as [[[y s2] e2]|] eqn:Ef; [|discriminate]. injection H as _ <- _.
  rewrite (Hf _ _ _ _ _ _ Ef). exact (Hm _ _ _ _ _ Em).
Qed.
Ltac keep := repeat match goal with
  | |- keep (bind _ _) => apply keep_bind; [|intro]
  | |- keep (ret _) => apply keep_ret
  | |- keep (fail _) => apply keep_fail
  | |- keep (gets _) => apply keep_gets
  | |- keep (emit _) => apply keep_emit
  | |- keep (query _ _) => apply keep_query
  | |- keep (modify _) => apply keep_modify; intro; reflexivity
  | |- keep (match ?x with _ => _ end) => destruct x
  | |- keep (let _ := _ in _) => cbv zeta
  | |- keep _ => progress unfold frame_get, frame_read, arr_get, arr_set, arr_memcpy, get_stk, mod_stk, get_ses, mod_ses, get_mac, mod_mac, get_adr, mod_adr, get_ch, mod_ch, shl24, deref_hal
  end.
Lemma keep_enqueue c d : keep (mac_enqueue c d).
Proof. unfold mac_enqueue. cbv zeta. keep. Qed.
Lemma keep_bit_is i : keep (bit_is_set i).
Proof. unfold bit_is_set. keep. Qed.
Lemma keep_bit_set i : keep (bit_set i).
Proof. unfold bit_set. keep. Qed.
Lemma keep_bit_clear i : keep (bit_clear i).
Proof. unfold bit_clear. keep. Qed.
Lemma keep_recompute n : forall i, keep (recompute_max n i).
Proof. induction n as [|n IH]; intro i; cbn [recompute_max]; keep; try apply keep_bit_is; apply IH. Qed.
Lemma keep_enable i b : keep (uwan_enable_channel i b).
Proof. unfold uwan_enable_channel. keep; try apply keep_bit_set; try apply keep_bit_clear. apply keep_recompute. Qed.
Lemma keep_set_channel i f : keep (uwan_set_channel i f).
Proof. unfold uwan_set_channel. keep. apply keep_enable. Qed.
Lemma keep_enable_all n : forall i, keep (channels_enable_all_loop n i).
Proof. induction n as [|n IH]; intro i; cbn [channels_enable_all_loop]; keep; try apply keep_bit_set; apply IH. Qed.
Lemma keep_mask_loop n : forall i m d, keep (ch_mask_loop n i m d).
Proof.
  induction n as [|n IH]; intros i m d; cbn [ch_mask_loop]; unfold channel_is_exist; cbv zeta; keep; try apply keep_enable; apply IH.
Qed.
Lemma keep_region r m c d : keep (region_handle_adr_ch_mask r m c d).
Proof. unfold region_handle_adr_ch_mask, region_86x_handle_adr_ch_mask. keep; try apply keep_mask_loop. apply keep_enable_all. Qed.
Lemma keep_link_adr pld : keep (link_adr pld).
Proof.
  unfold link_adr, adr_handle_link_req, set_nb_trans, reset_nb_trans, set_tx_power. cbv zeta.
  keep; try apply keep_region; try apply keep_enqueue.
Qed.
Lemma keep_rx_param pld : keep (rx_param_setup pld).
Proof. unfold rx_param_setup, uwan_set_rx1_dr_offset, uwan_set_rx2. cbv zeta. keep; apply keep_enqueue. Qed.
Lemma keep_new_channel pld : keep (new_channel pld).
Proof. unfold new_channel. cbv zeta. keep; try apply keep_set_channel; apply keep_enqueue. Qed.
Lemma keep_rx_timing pld : keep (rx_timing_setup pld).
Proof. unfold rx_timing_setup, uwan_set_rx1_delay. cbv zeta. keep; apply keep_enqueue. Qed.
Lemma keep_dispatch E cid rest : keep (mac_dispatch (mac_commands E) cid rest).
Proof.
  unfold mac_commands. cbn [mac_dispatch].
  unfold link_check, duty_cycle, dev_status, get_snr, tx_param_setup, di_channel, device_time. cbv zeta.
  keep; try apply keep_enqueue; try apply keep_link_adr; try apply keep_rx_param; try apply keep_new_channel; apply keep_rx_timing.
Qed.

(** ** Handlers that do not call the API *)
Section Silent.
Context (E : env) (R : reaction) (HR : callback_only R).
Lemma react_not h e s : (forall x t v, e <> CbDown x t v) -> react E R (h ++ [e]) s = Ok (tt, s, []).
Proof. intro H. unfold react. rewrite (HR h e H). reflexivity. Qed.
Lemma emit_react {A} e (f : C A) h s : (forall x t v, e <> CbDown x t v) -> (emit e ;;; react E R ;;; f) h s = (emit e ;;; f) h s.
Proof. intro H. rewrite !bind_emit. erewrite bind_ok0; [|apply react_not; exact H]. reflexivity. Qed.
Lemma query_react {A B} (o : list ev -> A) k (f : A -> C B) h s : (forall a x t v, k a <> CbDown x t v) ->
  (b <- query o k ;; react E R ;;; f b) h s = (b <- query o k ;; f b) h s.
Proof. intro H. rewrite !bind_query. erewrite bind_ok0; [|apply react_not; apply H]. reflexivity. Qed.

Lemma link_check_eq pld h s : link_check_re E R pld h s = link_check pld h s.
Proof.
  unfold link_check_re, link_check. apply bind_ext; [reflexivity|]. intros [c|] s1 e1 _; [|reflexivity].
  destruct (has_link_check_result c); [|reflexivity].
  apply bind_ext; [reflexivity|]. intros a s2 e2 _. apply bind_ext; [reflexivity|]. intros b s3 e3 _.
  apply emit_react. discriminate.
Qed.
Lemma dev_status_eq pld h s : dev_status_re E R pld h s = dev_status E pld h s.
Proof.
  unfold dev_status_re, dev_status. apply bind_ext; [reflexivity|]. intros n s1 e1 _. cbv zeta.
  apply bind_ext; [reflexivity|]. intros c s2 e2 _. apply bind_ext; [|reflexivity].
  destruct c as [c|]; [|reflexivity]. destruct (has_get_battery_level c); [|reflexivity].
  rewrite query_react by discriminate. unfold query, bind, ret. rewrite app_nil_r. reflexivity.
Qed.
Lemma device_time_eq pld h s : device_time_re E R pld h s = device_time E pld h s.
Proof.
  unfold device_time_re, device_time. apply bind_ext; [reflexivity|]. intros [c|] s1 e1 _; [|reflexivity].
  destruct (has_device_time_result c); [|reflexivity].
  do 7 (apply bind_ext; [reflexivity|]; intros ? ? ? _; cbv zeta). apply emit_react. discriminate.
Qed.
Lemma dispatch_eq cid rest h s : mac_dispatch (mac_commands_re E R) cid rest h s = mac_dispatch (mac_commands E) cid rest h s.
Proof.
  unfold mac_commands_re, mac_commands. cbn [mac_dispatch].
  repeat match goal with |- (if ?b then _ else _) h s = _ => destruct b end; try reflexivity;
    apply bind_ext; try reflexivity; [apply link_check_eq|apply dev_status_eq|apply device_time_eq].
Qed.

Lemma skipn_cons (f : list Z) : forall n, (n < length f)%nat -> skipn n f = nth n f 0 :: skipn (S n) f.
Proof. induction f as [|x f IH]; intros [|n] H; cbn [length] in H; try lia; [reflexivity|]. cbn [skipn nth]. apply IH. lia. Qed.
Lemma skipn_plus (f : list Z) : forall a b, skipn a (skipn b f) = skipn (b + a) f.
Proof. induction f as [|x f IH]; intros a [|b]; cbn [skipn Nat.add]; rewrite ?skipn_nil; try reflexivity. apply IH. Qed.
Lemma sub_cons (f : list Z) a b : 0 <= a < b -> b <= len f -> sub f a (b - a) = get f a :: sub f (a + 1) (b - (a + 1)).
Proof.
  intros H1 H2. unfold len in H2. unfold sub, get. rewrite (skipn_cons f (Z.to_nat a)) by lia.
  replace (Z.to_nat (b - a)) with (S (Z.to_nat (b - (a + 1)))) by lia.
  replace (Z.to_nat (a + 1)) with (S (Z.to_nat a)) by lia. reflexivity.
Qed.
Lemma sub_suffix (f : list Z) a b k : 0 <= a <= b -> b <= len f -> forall r, r = skipn k (sub f a (b - a)) ->
  0 <= len r <= b - a /\ sub f (b - len r) (len r) = r.
Proof.
  intros H1 H2 r ->. unfold len in H2. assert (L : len (skipn k (sub f a (b - a))) = Z.of_nat (Z.to_nat (b - a) - k)).
  { unfold len, sub. rewrite skipn_length, firstn_length, skipn_length. lia. }
  rewrite L. split; [lia|]. unfold sub. rewrite skipn_firstn_comm, skipn_plus.
  destruct (Nat.le_gt_cases k (Z.to_nat (b - a))) as [K|K].
  - f_equal; [lia|]. f_equal. lia.
  - replace (Z.to_nat (b - a) - k)%nat with O by lia. reflexivity.
Qed.
Lemma dispatch_suffix cmds cid : forall rest h s b r s' es, mac_dispatch cmds cid rest h s = Ok (b, r, s', es) -> exists k, r = skipn k rest.
Proof.
  induction cmds as [|[[hd c] n] cmds IH]; intros rest h s b r s' es; cbn [mac_dispatch].
  - intro H. injection H as _ <- _ _. exists O. reflexivity.
  - destruct (cid =? c); [|apply IH]. destruct (n <=? len rest).
    + unfold bind, ret. destruct (hd rest h s) as [[[x s1] e1]|]; [|discriminate]. intro H. injection H as _ <- _ _. eexists. reflexivity.
    + intro H. injection H as _ <- _ _. exists O. reflexivity.
Qed.
Lemma loop_eq : forall fuel start stop h s, 0 <= start <= stop -> stop <= len (frame s) ->
  mac_loop_re E R fuel start stop h s = mac_handle_loop E fuel (sub (frame s) start (stop - start)) h s.
Proof.
  induction fuel as [|fuel IH]; intros start stop h s H1 H2; cbn [mac_loop_re mac_handle_loop];
    (destruct (Z.ltb_spec start stop) as [L|L];
     [rewrite (sub_cons _ _ _ (conj (proj1 H1) L) H2)|unfold sub; replace (Z.to_nat (stop - start)) with O by lia; reflexivity]); [reflexivity|].
  bstep ltac:(apply frame_get_ok; lia). bstep ltac:(apply frame_read_ok; lia).
  apply bind_ext; [apply dispatch_eq|]. intros [b r] s1 e1 Hd. destruct b; cbn [negb]; [|reflexivity].
  destruct (dispatch_suffix _ _ _ _ _ _ _ _ _ Hd) as (k & Hk).
  pose proof (keep_dispatch _ _ _ _ _ _ _ _ Hd) as Hf.
  destruct (sub_suffix (frame s) (start + 1) stop k ltac:(lia) H2 r Hk) as (Q1 & Q2).
  rewrite IH by (rewrite ?Hf; lia). rewrite Hf. replace (stop - (stop - len r)) with (len r) by lia. rewrite Q2. reflexivity.
Qed.
Lemma commands_eq n h s : 0 <= n < 16 -> length (frame s) = 255%nat ->
  mac_handle_commands_re E R 8 n h s = (cmds <- frame_read 8 n ;; mac_handle_commands E cmds) h s.
Proof.
  intros H1 H2. assert (8 + n <= len (frame s)) by (unfold len; lia).
  bstep ltac:(apply frame_read_ok; lia). unfold mac_handle_commands_re, mac_handle_commands.
  rewrite loop_eq by lia. replace (8 + n - 8) with n by lia. rewrite length_sub by lia. reflexivity.
Qed.

(** one statement of a function after the other, the buffer's length known *)
Lemma ext_keep {A B} (m : C A) (f f' : A -> C B) : keep m ->
  (forall a h s, length (frame s) = 255%nat -> f a h s = f' a h s) -> forall h s, length (frame s) = 255%nat -> bind m f h s = bind m f' h s.
Proof. intros K H h s L. apply bind_ext; [reflexivity|]. intros a s1 e1 X. apply H. rewrite (K _ _ _ _ _ X). exact L. Qed.
Lemma data_eq p : forall h s, length (frame s) = 255%nat -> handle_data_msg_re E R p h s = handle_data_msg E p h s.
Proof.
  unfold handle_data_msg_re, handle_data_msg. cbv zeta. intros h0 s0. destruct (pk_size p <? 12); [reflexivity|].
  revert h0 s0. apply ext_keep; [keep|]. intros mhdr h1 s1.
  destruct (negb (Z.land (Z.shiftr mhdr 0) 3 =? 0)); [reflexivity|].
  destruct (_ && _); [reflexivity|].
  revert h1 s1. apply ext_keep; [keep|]. intros _.
  do 6 (apply ext_keep; [keep|]; intro). intros h2 s2.
  destruct (negb _); [reflexivity|].
  revert h2 s2. apply ext_keep; [keep|]. intros ctrl h3 s3. destruct (_ <? _); [reflexivity|].
  revert h3 s3. do 2 (apply ext_keep; [keep|]; intro). apply ext_keep; [unfold update_f_cnt_down; cbv zeta; keep|]. intros fresh h4 s4.
  destruct (negb fresh); [reflexivity|]. revert h4 s4. apply ext_keep; [keep|]. intros _ h5 s5 L.
  apply bind_ext; [|reflexivity]. destruct (0 <? Z.land ctrl 15) eqn:Ec; [|reflexivity].
  apply commands_eq; [|exact L]. rewrite land_15. apply Z.mod_pos_bound. lia.
Qed.

Lemma downlink_eq e h s : length (frame s) = 255%nat ->
  handle_downlink_re E R e h s = (handle_downlink E e ;;; react E R) h s.
Proof.
  intro L. unfold handle_downlink_re, handle_downlink. rewrite bind_bind.
  apply bind_ext; [reflexivity|]. intros r s1 e1 X. cbv zeta.
  assert (Ks : frame s1 = frame s) by (refine ((_ : keep deref_hal) _ _ _ _ _ X); keep).
  rewrite <- Ks in L. clear X Ks. revert L. generalize (h ++ e1) as h1. intros h1 L.
  rewrite bind_bind. apply bind_ext; [reflexivity|]. intros p s2 e2 X.
  assert (L2 : length (frame s2) = 255%nat).
  { destruct (is_ERR_NO e).
    - rewrite bind_query in X. destruct (frame_memcpy 0 (rx_data (e_pkt E h1)) (len (rx_data (e_pkt E h1))) (h1 ++ [RRead (e_pkt E h1)]) s1) as [[[u s3] e3]|] eqn:Em;
        unfold bind in X; rewrite Em in X; [|discriminate X]. cbn in X. injection X as _ <- _.
      unfold frame_memcpy in Em. rewrite bind_get_stk in Em. unfold arr_memcpy in Em.
      fold (frame s1) in Em. destruct (_ && _) eqn:G; [|discriminate Em]. cbn -[blit firstn] in Em. injection Em as _ <- _. unfold frame, on_stk. cbn -[blit firstn].
      rewrite blit_length; fold (frame s1); [exact L| |]; unfold len in *; rewrite ?firstn_length; lia.
    - injection X as _ <- _. exact L. }
  clear X L. revert L2. generalize (h1 ++ e2) as h2. intros h2 L2.
  rewrite bind_bind. apply bind_ext; [reflexivity|]. intros u s3 e3 X. injection X as _ <- _.
  rewrite bind_bind. apply bind_ext.
  { destruct (is_ERR_NO e); [|reflexivity]. apply bind_ext; [reflexivity|]. intros b s4 e4 X.
    assert (K4 : frame s4 = frame s2) by (refine ((_ : keep (frame_get 0)) _ _ _ _ _ X); keep). rewrite <- K4 in L2.
    apply bind_ext; [reflexivity|]. intros j s5 e5 X5. injection X5 as _ <- _. destruct j; [reflexivity|].
    apply bind_ext; [|reflexivity]. apply data_eq. exact L2. }
  intros [[e' t] p2] s4 e4 _. rewrite bind_bind. apply bind_ext; [reflexivity|]. intros u2 s5 e5 _.
  rewrite bind_bind. reflexivity.
Qed.
End Silent.

(** ** Which interrupts end in the downlink callback *)
Definition nocb {A} (m : C A) : Prop := forall h s a s' es, m h s = Ok (a, s', es) -> callbacks es = [].
Definition hascb {A} (m : C A) : Prop := forall h s a s' es, m h s = Ok (a, s', es) -> callbacks es <> [].
Lemma cbs_app a : forall b, callbacks (a ++ b) = callbacks a ++ callbacks b.
Proof. induction a as [|e a IH]; intro b; [reflexivity|]. destruct e; cbn [callbacks app]; rewrite ?IH; reflexivity. Qed.
Lemma nocb_ret {A} (a : A) : nocb (ret a).
Proof. intros h s r s' es H. injection H as _ _ <-. reflexivity. Qed.
Lemma nocb_fail {A} k : nocb (@fail st ev A k).
Proof. intros h s r s' es H. discriminate H. Qed.
Lemma nocb_gets {A} (f : st -> A) : nocb (gets f).
Proof. intros h s r s' es H. injection H as _ _ <-. reflexivity. Qed.
Lemma nocb_modify f : nocb (@modify st ev f).
Proof. intros h s r s' es H. inversion H. reflexivity. Qed.
Lemma nocb_emit e : callbacks [e] = [] -> nocb (emit e).
Proof. intros K h s r s' es H. inversion H. subst. exact K. Qed.
Lemma nocb_query {A} (o : list ev -> A) k : (forall a, callbacks [k a] = []) -> nocb (query o k).
Proof. intros K h s r s' es H. inversion H. subst. apply K. Qed.
Lemma nocb_bind {A B} (m : C A) (f : A -> C B) : nocb m -> (forall a, nocb (f a)) -> nocb (bind m f).
Proof.
  intros Hm Hf h s r s' es H. unfold bind in H. destruct (m h s) as [[[x s1] e1]|] eqn:Em; [|discriminate].
  destruct (f x (h ++ e1) s1) as [[[y s2] e2]|] eqn:Ef; [|discriminate]. injection H as _ _ <-.
  rewrite cbs_app, (Hm _ _ _ _ _ Em), (Hf _ _ _ _ _ _ Ef). reflexivity.
Qed.
Lemma hascb_bind {A B} (m : C A) (f : A -> C B) : (forall a, hascb (f a)) -> hascb (bind m f).
Proof.
  intros Hf h s r s' es H. unfold bind in H. destruct (m h s) as [[[x s1] e1]|] eqn:Em; [|discriminate].
  destruct (f x (h ++ e1) s1) as [[[y s2] e2]|] eqn:Ef; [|discriminate]. injection H as _ _ <-.
  rewrite cbs_app. intro Q. apply app_eq_nil in Q as [_ Q]. exact (Hf _ _ _ _ _ _ Ef Q).
Qed.
Ltac nocb := repeat match goal with
  | |- nocb (bind _ _) => apply nocb_bind; [|intro]
  | |- nocb (ret _) => apply nocb_ret
  | |- nocb (fail _) => apply nocb_fail
  | |- nocb (gets _) => apply nocb_gets
  | |- nocb (emit _) => apply nocb_emit; reflexivity
  | |- nocb (query _ _) => apply nocb_query; intro; reflexivity
  | |- nocb (modify _) => apply nocb_modify
  | |- nocb (match ?x with _ => _ end) => destruct x
  | |- nocb _ => progress unfold frame_get, frame_read, arr_get, arr_set, arr_memcpy, get_stk, mod_stk, get_ses, mod_ses, get_mac, mod_mac, get_adr, mod_adr, get_ch, mod_ch, shl24, deref_hal, mod_params, get_current_dr, uwan_adr_is_enabled
  end.
Lemma rx1_timeout_nocb : nocb evt_rx1_timeout.
Proof. unfold evt_rx1_timeout. nocb. Qed.
Lemma tx_done_nocb E : nocb (evt_tx_done E).
Proof. unfold evt_tx_done, mac_on_tx_complete. cbv zeta. nocb. Qed.
Lemma downlink_hascb E e : hascb (handle_downlink E e).
Proof.
  unfold handle_downlink. cbv zeta. do 3 (apply hascb_bind; intro). apply hascb_bind. intros [[e' t] p].
  do 2 (apply hascb_bind; intro). intros h s r s' es H. inversion H. discriminate.
Qed.
Lemma tx_done_eq E R h s : callback_only R -> evt_tx_done_re E R h s = evt_tx_done E h s.
Proof.
  intro HR. unfold evt_tx_done_re, evt_tx_done. do 11 (apply bind_ext; [reflexivity|]; intros ? ? ? _).
  unfold mac_on_tx_complete_re, mac_on_tx_complete. apply bind_ext; [reflexivity|]. intros [|] ? ? _; [|reflexivity].
  apply bind_ext; [reflexivity|]. intros ? ? ? _. apply bind_ext; [reflexivity|]. intros [c|] ? ? _; [|reflexivity].
  destruct (has_get_device_time c); [|reflexivity]. apply query_react; [exact HR|discriminate].
Qed.
Lemma handler_split E R m h s : callback_only R -> length (frame s) = 255%nat ->
  (evt_handler_re E R m h s = evt_handler E m h s /\ forall a s' es, evt_handler E m h s = Ok (a, s', es) -> callbacks es = []) \/
  (evt_handler_re E R m h s = (evt_handler E m ;;; react E R) h s /\ forall a s' es, evt_handler E m h s = Ok (a, s', es) -> callbacks es <> []).
Proof.
  intros HR L. unfold evt_handler_re, evt_handler. rewrite bind_bind, !bind_get_stk.
  assert (Hn : forall (k : C unit), nocb k -> forall a s' es, k h s = Ok (a, s', es) -> callbacks es = []) by (intros k K; apply K).
  assert (Hc : forall (k : C unit), hascb k -> forall a s' es, k h s = Ok (a, s', es) -> callbacks es <> []) by (intros k K; apply K).
  destruct (uw_state (s_stk s)).
  - left. split; [reflexivity|]. apply Hn. nocb.
  - left. split; [reflexivity|]. apply Hn. nocb.
  - left. destruct (irq_has m IRQF_TX_DONE).
    + split; [apply tx_done_eq; exact HR|]. apply Hn. apply tx_done_nocb.
    + split; [reflexivity|]. apply Hn. nocb.
  - destruct (irq_has m IRQF_RX_TIMEOUT).
    { left. split; [reflexivity|]. apply Hn. apply rx1_timeout_nocb. }
    destruct (irq_has m IRQF_RX_DONE).
    2: { left. split; [reflexivity|]. apply Hn. nocb. }
    right. split.
    + rewrite bind_bind. apply bind_ext; [reflexivity|]. intros r s1 e1 X.
      assert (Ks : frame s1 = frame s) by (refine ((_ : keep deref_hal) _ _ _ _ _ X); keep). rewrite <- Ks in L.
      rewrite bind_bind. apply bind_ext; [reflexivity|]. intros u s2 e2 X2. injection X2 as _ <- _.
      rewrite bind_bind. apply bind_ext; [reflexivity|]. intros u2 s3 e3 X3. injection X3 as _ <- _.
      destruct (irq_has m IRQF_CRC_ERROR); apply downlink_eq; assumption.
    + apply Hc. do 3 (apply hascb_bind; intro). destruct (irq_has m IRQF_CRC_ERROR); apply downlink_hascb.
  - destruct (irq_has m IRQF_RX_TIMEOUT).
    { right. split.
      - rewrite bind_bind. apply bind_ext; [reflexivity|]. intros u s2 e2 X2. injection X2 as _ <- _. apply downlink_eq; assumption.
      - apply Hc. apply hascb_bind. intro. apply downlink_hascb. }
    destruct (irq_has m IRQF_RX_DONE).
    2: { left. split; [reflexivity|]. apply Hn. nocb. }
    right. split.
    + rewrite bind_bind. apply bind_ext; [reflexivity|]. intros u2 s3 e3 X3. injection X3 as _ <- _.
      destruct (irq_has m IRQF_CRC_ERROR); apply downlink_eq; assumption.
    + apply Hc. apply hascb_bind; intro. destruct (irq_has m IRQF_CRC_ERROR); apply downlink_hascb.
Qed.
Lemma calls_exec E ops : forall h s s' es, calls E ops h s = Ok (tt, s', es) <->
  exists tr, exec E (Mk_world s h) ops tr (Mk_world s' (h ++ es)) /\ es = all_evs tr.
Proof.
  induction ops as [|o ops IH]; intros h s s' es; cbn [calls]; split.
  - intro H. injection H as <- <-. exists []. rewrite app_nil_r. split; [apply exec_nil|reflexivity].
  - intros (tr & H & ->). inversion H. subst. reflexivity.
  - unfold bind. destruct (call E o h s) as [[[v s1] e1]|] eqn:Ec; [|discriminate].
    destruct (calls E ops (h ++ e1) s1) as [[[[] s2] e2]|] eqn:Es; [|discriminate]. intro H. injection H as <- <-.
    apply IH in Es as (tr & Hx & ->). exists ((o, v, e1) :: tr). split; [|reflexivity].
    rewrite app_assoc. econstructor; [|exact Hx]. unfold step. cbn [w_hist w_st]. rewrite Ec. reflexivity.
  - intros (tr & H & ->). inversion H as [|w o0 ops0 v e1 w1 tr0 w2 Hs Hx]. subst. cbn [all_evs flat_map evs_of snd] in *.
    unfold step in Hs. cbn [w_hist w_st] in Hs. unfold bind. destruct (call E o h s) as [[[v0 s1] e0]|] eqn:Ec; [|discriminate].
    injection Hs as <- <- <-. fold (all_evs tr0) in *. rewrite app_assoc in Hx.
    rewrite (proj2 (IH (h ++ e0) s1 s' (all_evs tr0)) (ex_intro _ tr0 (conj Hx eq_refl))). reflexivity.
Qed.

Definition endcb {A} (m : C A) : Prop := forall h s a s' es, m h s = Ok (a, s', es) -> exists es0 x t v, es = es0 ++ [CbDown x t v].
Lemma endcb_bind {A B} (m : C A) (f : A -> C B) : (forall a, endcb (f a)) -> endcb (bind m f).
Proof.
  intros Hf h s r s' es H. unfold bind in H. destruct (m h s) as [[[x s1] e1]|] eqn:Em; [|discriminate].
  destruct (f x (h ++ e1) s1) as [[[y s2] e2]|] eqn:Ef; [|discriminate]. injection H as _ _ <-.
  destruct (Hf _ _ _ _ _ _ Ef) as (es0 & a & b & c & ->). exists (e1 ++ es0), a, b, c. apply app_assoc.
Qed.

(** ** Handlers that only change settings *)
(** what a received packet is checked and decrypted with *)
Record kept (s s' : st) : Prop := Mk_kept {
  kp_frame : frame s' = frame s;
  kp_region : uw_region (s_stk s') = uw_region (s_stk s);
  kp_state : uw_state (s_stk s') = uw_state (s_stk s);
  kp_join : uw_is_join_state (s_stk s') = uw_is_join_state (s_stk s);
  kp_nwk : nwk_s_key (s_ses s') = nwk_s_key (s_ses s);
  kp_app : app_s_key (s_ses s') = app_s_key (s_ses s);
  kp_addr : dev_addr (s_ses s') = dev_addr (s_ses s);
  kp_up : f_cnt_up (s_ses s') = f_cnt_up (s_ses s);
  kp_down : f_cnt_down (s_ses s') = f_cnt_down (s_ses s);
  kp_joined : is_joined (s_ses s') = is_joined (s_ses s);
  kp_ack : ack_required (s_ses s') = ack_required (s_ses s)
}.
Lemma kept_refl s : kept s s.
Proof. constructor; reflexivity. Qed.
Lemma kept_trans a b c : kept a b -> kept b c -> kept a c.
Proof. intros [] []. constructor; congruence. Qed.
Lemma kept_sym a b : kept a b -> kept b a.
Proof. intros []. constructor; congruence. Qed.
Lemma macfr_kept s s' : macfr s s' -> kept s s'.
Proof. intros []. constructor; assumption. Qed.

Lemma setting_simple o s : setting o = true -> exists v s', simple o s = Some (v, s') /\ kept s s'.
Proof.
  intro H. destruct o; try discriminate H; cbn [simple];
    repeat match goal with |- context [if ?b then _ else _] => destruct b end;
    (eexists; eexists; split; [reflexivity|constructor; reflexivity]).
Qed.
Lemma calls_ok E ops : forall h s, Inv s -> setting_ops ops -> exists s', calls E ops h s = Ok (tt, s', []) /\ Inv s' /\ kept s s'.
Proof.
  induction ops as [|o ops IH]; intros h s HI Ho; cbn [calls].
  - exists s. split; [reflexivity|]. split; [exact HI|apply kept_refl].
  - inversion Ho as [|o0 l (Hw & Hb) Hr]. subst. destruct (setting_simple o s Hb) as (v & s1 & Hs & Hk).
    bstep ltac:(apply simple_ok; eassumption).
    destruct (IH h s1 (simple_Inv _ _ _ _ HI Hw Hs) Hr) as (s2 & A & B & D).
    exists s2. split; [exact A|]. split; [exact B|]. eapply kept_trans; eassumption.
Qed.

Section Settings.
Context (E : env) (R : reaction) (HE : env_ok E) (Hns : e_strict_shl E = false) (HR : settings_only R).
Lemma react_ok h e s : (forall x t v, e <> CbDown x t v) -> Inv s -> exists s', react E R (h ++ [e]) s = Ok (tt, s', []) /\ Inv s' /\ kept s s'.
Proof. intros He HI. unfold react. apply calls_ok; [exact HI|apply HR; exact He]. Qed.

(** after one command *)
Definition cmd_post {A} (s : st) (r : res (A * st * list ev)) : Prop :=
  exists a s' es, r = Ok (a, s', es) /\ Inv s' /\ kept s s' /\ outside es = [].
Lemma mac_evs_out es : Forall (fun e => is_mac_ev e = true) es -> outside es = [].
Proof. induction 1 as [|e es H _ IH]; [reflexivity|]. destruct e; try discriminate H; exact IH. Qed.

Lemma out_app a b : outside (a ++ b) = outside a ++ outside b.
Proof. apply filter_app. Qed.
Lemma link_check_post pld h s : Inv s -> 2 <= len pld -> cmd_post s (link_check_re E R pld h s).
Proof.
  intros HI Hl. unfold link_check_re. msteps. destruct (mac_cbs (s_mac s)) as [c|]; [destruct (has_link_check_result c)|];
    try (exists true, s, []; split; [reflexivity|split; [exact HI|split; [apply kept_refl|reflexivity]]]).
  bstep ltac:(apply arr_get_ok; lia). bstep ltac:(apply arr_get_ok; lia). msteps.
  destruct (react_ok h (MLinkCheck (get pld 0) (get pld 1)) s ltac:(discriminate) HI) as (s' & A & B & D).
  erewrite bind_ok0; [|exact A]. cbn. eexists true, s', _. split; [reflexivity|]. auto.
Qed.
Lemma dev_status_post pld h s : Inv s -> cmd_post s (dev_status_re E R pld h s).
Proof.
  intro HI. unfold dev_status_re, get_snr. msteps. cbv zeta. msteps.
  assert (Hb : is_byte (u8 (Z.land (current_snr (s_stk s)) 63))) by (unfold is_byte, u8; apply Z.mod_pos_bound; lia).
  revert Hb. generalize (u8 (Z.land (current_snr (s_stk s)) 63)) as mg. intros mg Hb.
  assert (Hq : forall b h' s', is_byte b -> Inv s' -> cmd_post s' (mac_enqueue CID_DEV_STATUS [b; mg] h' s')).
  { intros b h' s' Hb' HI'. rewrite (mac_enqueue_ok _ _ (s_mac s')) by (try exact (iv_mac _ HI'); try reflexivity; cbn; lia).
    destruct (enq_Inv CID_DEV_STATUS [b; mg] s' HI') as (Q1 & Q2); [unfold is_byte, CID_DEV_STATUS; lia|repeat constructor; apply Hb' || apply Hb|].
    unfold enq in *. cbn [fst snd] in *. eexists _, _, _. split; [reflexivity|]. split; [exact Q1|]. split; [apply macfr_kept; exact Q2|reflexivity]. }
  destruct (mac_cbs (s_mac s)) as [c|]; [destruct (has_get_battery_level c)|].
  - msteps. destruct (react_ok h (MBattery (e_battery E h)) s ltac:(discriminate) HI) as (s' & A & B & D).
    rewrite ?bind_bind. erewrite bind_ok0; [|exact A]. msteps.
    destruct (Hq (e_battery E h) (h ++ [MBattery (e_battery E h)]) s') as (a & s2 & es & X & Y & Z & W); [apply (ok_battery E HE)|exact B|].
    rewrite X. exists a, s2. eexists. split; [reflexivity|]. split; [exact Y|]. split; [eapply kept_trans; eassumption|]. cbn. exact W.
  - msteps. apply Hq; [unfold is_byte; lia|exact HI].
  - msteps. apply Hq; [unfold is_byte; lia|exact HI].
Qed.
Lemma device_time_post pld h s : Inv s -> 5 <= len pld -> cmd_post s (device_time_re E R pld h s).
Proof.
  intros HI Hl. unfold device_time_re. msteps. destruct (mac_cbs (s_mac s)) as [c|]; [destruct (has_device_time_result c)|];
    try (exists true, s, []; split; [reflexivity|split; [exact HI|split; [apply kept_refl|reflexivity]]]).
  do 4 (bstep ltac:(apply arr_get_ok; lia)). unfold shl24. rewrite Hns. cbn [andb]. msteps. cbv zeta.
  bstep ltac:(apply arr_get_ok; lia). msteps.
  match goal with |- cmd_post _ (addev [?e] _) => destruct (react_ok h e s ltac:(discriminate) HI) as (s' & A & B & D) end.
  erewrite bind_ok0; [|exact A]. cbn -[utils_gps_to_unix]. eexists true, s', _. split; [reflexivity|]. auto.
Qed.
Lemma dispatch_post cid rest h s : Inv s -> uw_region (s_stk s) <> None -> bytes_ok rest ->
  cmd_post s (mac_dispatch (mac_commands_re E R) cid rest h s).
Proof.
  intros HI Hr Hb.
  assert (Hret : forall b r, cmd_post s (ret (b, r) h s : res (bool * list Z * st * list ev))).
  { intros b r. exists (b, r), s, []. split; [reflexivity|]. split; [exact HI|]. split; [apply kept_refl|reflexivity]. }
  assert (Hk : forall hd n, (n <=? len rest = true -> cmd_post s (hd rest h s)) ->
     cmd_post s ((if n <=? len rest then status <- hd rest ;; ret (status, skipn (Z.to_nat n) rest) else ret (false, rest)) h s)).
  { intros hd n K. destruct (n <=? len rest); [|apply Hret]. destruct (K eq_refl) as (a & s' & es & X & Y & Z & W).
    erewrite bind_ok; [|exact X]. cbn. eexists _, s', _. split; [reflexivity|]. rewrite app_nil_r. auto. }
  destruct (Z.eqb_spec cid 2) as [-> |N2]; [cbn [mac_dispatch mac_commands_re]; apply Hk; intro L; apply link_check_post; [exact HI|lia]|].
  destruct (Z.eqb_spec cid 6) as [-> |N6]; [cbn [mac_dispatch mac_commands_re]; apply Hk; intro L; apply dev_status_post; exact HI|].
  destruct (Z.eqb_spec cid 13) as [-> |N13]; [cbn [mac_dispatch mac_commands_re]; apply Hk; intro L; apply device_time_post; [exact HI|lia]|].
  assert (Eq : mac_dispatch (mac_commands_re E R) cid rest = mac_dispatch (mac_commands E) cid rest).
  { unfold mac_commands_re, mac_commands. cbn [mac_dispatch]. unfold CID_LINK_CHECK, CID_DEV_STATUS, CID_DEVICE_TIME.
    apply Z.eqb_neq in N2, N6, N13. rewrite N2, N6, N13. reflexivity. }
  rewrite Eq, mac_dispatch_ok by assumption. destruct (p_size cid) as [n|]; [|apply Hret].
  destruct (n <=? len rest); [|apply Hret].
  pose proof (p_cmd_Inv E h cid rest s HE HI Hb) as P. destruct (p_cmd E h cid rest s) as [[b s1] e1]. destruct P as (P1 & P2 & P3).
  eexists _, s1, e1. split; [reflexivity|]. split; [exact P1|]. split; [apply macfr_kept; exact P2|apply mac_evs_out; exact P3].
Qed.
Lemma loop_post : forall fuel start stop h s, Inv s -> uw_region (s_stk s) <> None -> 0 <= start <= stop -> stop <= 255 ->
  stop - start <= Z.of_nat fuel -> cmd_post s (mac_loop_re E R fuel start stop h s).
Proof.
  induction fuel as [|fuel IH]; intros start stop h s HI Hr H1 H2 H3; cbn [mac_loop_re];
    (destruct (Z.ltb_spec start stop) as [L|L]; [|exists tt, s, []; split; [reflexivity|split; [exact HI|split; [apply kept_refl|reflexivity]]]]); [lia|].
  pose proof (tk_frame _ (iv_stk _ HI)) as Hf. fold (frame s) in Hf. assert (Hf' : len (frame s) = 255) by (unfold len; lia).
  bstep ltac:(apply frame_get_ok; lia). bstep ltac:(apply frame_read_ok; lia).
  destruct (dispatch_post (get (frame s) start) (sub (frame s) (start + 1) (stop - (start + 1))) h s HI Hr) as ([b r] & s1 & e1 & X & Y & Z & W).
  { apply bytes_sub. exact (tk_frameb _ (iv_stk _ HI)). }
  erewrite bind_ok; [|exact X]. destruct (dispatch_suffix _ _ _ _ _ _ _ _ _ X) as (k & Hk).
  destruct (sub_suffix (frame s) (start + 1) stop k ltac:(lia) ltac:(lia) r Hk) as (Q1 & Q2).
  destruct b; cbn [negb].
  - destruct (IH (stop - len r) stop (h ++ e1) s1 Y) as (a & s2 & e2 & X2 & Y2 & Z2 & W2); [rewrite (kp_region _ _ Z); exact Hr|lia|lia|lia|].
    rewrite X2. exists a, s2. eexists. split; [reflexivity|]. split; [exact Y2|]. split; [eapply kept_trans; eassumption|]. rewrite out_app, W, W2. reflexivity.
  - exists tt, s1. eexists. split; [reflexivity|]. split; [exact Y|]. split; [exact Z|]. rewrite app_nil_r. exact W.
Qed.

(** *** Two runs from states that agree on what a packet is checked with *)
Definition rel {A} (x y : res (A * st * list ev)) : Prop :=
  match x, y with
  | Ok (a, t, es), Ok (a', t', es') => a = a' /\ kept t' t /\ outside es = outside es'
  | Undef _, Undef _ => True
  | _, _ => False
  end.
Lemma rel_refl {A} (x : res (A * st * list ev)) : rel x x.
Proof. destruct x as [[[a t] es]|]; [|exact I]. split; [reflexivity|]. split; [apply kept_refl|reflexivity]. Qed.
Lemma rel_addev {A} e (x y : res (A * st * list ev)) : rel x y -> rel (addev e x) (addev e y).
Proof.
  destruct x as [[[a t] es]|], y as [[[a' t'] es']|]; cbn [rel addev]; try tauto.
  intros (P & Q & W). split; [exact P|]. split; [exact Q|]. rewrite !out_app, W. reflexivity.
Qed.
Lemma rel_bind {A B} (m m' : C A) (f f' : A -> C B) h h' s s' : rel (m h s) (m' h' s') ->
  (forall a k k' t t', kept t' t -> rel (f a k t) (f' a k' t')) -> rel (bind m f h s) (bind m' f' h' s').
Proof.
  intros Hm Hf. unfold bind. destruct (m h s) as [[[a t] es]|], (m' h' s') as [[[a' t'] es']|]; cbn [rel] in Hm; try contradiction; [|exact I].
  destruct Hm as (<- & K & Q). specialize (Hf a (h ++ es) (h' ++ es') t t' K).
  destruct (f a (h ++ es) t) as [[[b u] fs]|], (f' a (h' ++ es') t') as [[[b' u'] fs']|]; cbn [rel] in Hf; try contradiction; [|exact I].
  destruct Hf as (<- & K' & Q'). split; [reflexivity|]. split; [exact K'|]. rewrite !out_app, Q, Q'. reflexivity.
Qed.
Definition sim {A} (m m' : C A) : Prop := forall h h' s s', kept s' s -> rel (m h s) (m' h' s').
Lemma sim_bind {A B} (m m' : C A) (f f' : A -> C B) : sim m m' -> (forall a, sim (f a) (f' a)) -> sim (bind m f) (bind m' f').
Proof. intros Hm Hf h h' s s' K. apply rel_bind; [apply Hm; exact K|]. intros a k k' t t' K'. apply Hf. exact K'. Qed.
Lemma sim_ret {A} (a : A) : sim (ret a) (ret a).
Proof. intros h h' s s' K. split; [reflexivity|]. split; [exact K|reflexivity]. Qed.
Lemma sim_fail {A} k : sim (@fail st ev A k) (fail k).
Proof. intros h h' s s' K. exact I. Qed.
Lemma sim_emit e : sim (emit e) (emit e).
Proof. intros h h' s s' K. split; [reflexivity|]. split; [exact K|reflexivity]. Qed.
Lemma sim_gets {A} (g : st -> A) : (forall s s', kept s' s -> g s = g s') -> sim (gets g) (gets g).
Proof. intros G h h' s s' K. split; [apply G; exact K|]. split; [exact K|reflexivity]. Qed.
Lemma sim_modify g : (forall s s', kept s' s -> kept (g s') (g s)) -> sim (@modify st ev g) (modify g).
Proof. intros G h h' s s' K. split; [reflexivity|]. split; [apply G; exact K|reflexivity]. Qed.
Ltac sim := repeat match goal with
  | |- sim (bind _ _) (bind _ _) => apply sim_bind; [|intro]
  | |- sim (ret _) (ret _) => apply sim_ret
  | |- sim (fail _) (fail _) => apply sim_fail
  | |- sim (emit _) (emit _) => apply sim_emit
  | |- sim (gets _) (gets _) => apply sim_gets; intros ? ? []; cbn; try assumption; try reflexivity
  | |- sim (modify _) (modify _) => apply sim_modify; intros ? ? []; constructor; cbn; try assumption; try reflexivity
  | |- sim (match ?x with _ => _ end) (match ?x with _ => _ end) => destruct x
  | |- sim _ _ => progress unfold frame_get, frame_put, frame_read, frame_memcpy, arr_get, arr_set, arr_memcpy, get_stk, mod_stk, get_ses, mod_ses, get_adr, mod_adr, deref_hal
  end.
Lemma sim_xor n : forall i base pos blk, sim (xor_loop n i base pos blk) (xor_loop n i base pos blk).
Proof. induction n as [|n IH]; intros i base pos blk; cbn [xor_loop]; sim. apply IH. Qed.
Lemma sim_encrypt_loop fuel : forall key blk i base pos size,
  sim (encrypt_loop E fuel key blk i base pos size) (encrypt_loop E fuel key blk i base pos size).
Proof.
  induction fuel as [|fuel IH]; intros; cbn [encrypt_loop]; cbv zeta; (destruct (0 <? size); [|sim]); [sim|].
  apply sim_bind; [sim|intro]. apply sim_bind; [apply sim_xor|intro]. apply IH.
Qed.
Lemma sim_encrypt base size key dir : sim (encrypt_payload E base size key dir) (encrypt_payload E base size key dir).
Proof. unfold encrypt_payload. cbv zeta. sim. apply sim_encrypt_loop. Qed.
Lemma sim_mic n key dir b0 : sim (calc_mic E n key dir b0) (calc_mic E n key dir b0).
Proof. unfold calc_mic. cbv zeta. sim. Qed.

Definition J (s : st) : Prop := Inv s /\ uw_region (s_stk s) <> None.
Definition keepJ {A} (m : C A) : Prop := forall h s a s' es, J s -> m h s = Ok (a, s', es) -> J s'.
Lemma same_bind {A B} (m : C A) (f f' : A -> C B) : keepJ m -> (forall a h s, J s -> rel (f a h s) (f' a h s)) ->
  forall h s, J s -> rel (bind m f h s) (bind m f' h s).
Proof.
  intros K H h s Hj. unfold bind. destruct (m h s) as [[[a s1] e1]|] eqn:Em; [|exact I].
  specialize (H a (h ++ e1) s1 (K _ _ _ _ _ Hj Em)).
  destruct (f a (h ++ e1) s1) as [[[b u] fs]|], (f' a (h ++ e1) s1) as [[[b' u'] fs']|]; cbn [rel] in H; try contradiction; [|exact I].
  destruct H as (<- & K' & Q'). split; [reflexivity|]. split; [exact K'|]. rewrite !out_app, Q'. reflexivity.
Qed.
Lemma keepJ_bind {A B} (m : C A) (f : A -> C B) : keepJ m -> (forall a, keepJ (f a)) -> keepJ (bind m f).
Proof.
  intros Hm Hf h s r s' es Hj H. unfold bind in H. destruct (m h s) as [[[x s1] e1]|] eqn:Em; [|discriminate].
  destruct (f x (h ++ e1) s1) as [[[y s2] e2]|] eqn:Ef; [|discriminate]. injection H as _ <- _.
  exact (Hf _ _ _ _ _ _ (Hm _ _ _ _ _ Hj Em) Ef).
Qed.
Lemma keepJ_ret {A} (a : A) : keepJ (ret a).
Proof. intros h s r s' es Hj H. injection H as _ <- _. exact Hj. Qed.
Lemma keepJ_fail {A} k : keepJ (@fail st ev A k).
Proof. intros h s r s' es Hj H. discriminate H. Qed.
Lemma keepJ_gets {A} (g : st -> A) : keepJ (gets g).
Proof. intros h s r s' es Hj H. injection H as _ <- _. exact Hj. Qed.
Lemma keepJ_modify g : (forall s, J s -> J (g s)) -> keepJ (@modify st ev g).
Proof. intros G h s r s' es Hj H. inversion H. apply G. exact Hj. Qed.
Ltac keepJ := repeat match goal with
  | |- keepJ (bind _ _) => apply keepJ_bind; [|intro]
  | |- keepJ (ret _) => apply keepJ_ret
  | |- keepJ (fail _) => apply keepJ_fail
  | |- keepJ (gets _) => apply keepJ_gets
  | |- keepJ (match ?x with _ => _ end) => destruct x
  | |- keepJ _ => progress unfold frame_get, frame_read, arr_get, get_stk, get_ses, shl24, deref_hal
  end.
Lemma keepJ_ack b : keepJ (mod_ses (set_ack_required b)).
Proof.
  apply keepJ_modify. intros s ([I1 I2 I3 I4 I5 I6] & Hr). split; [|exact Hr]. constructor; try assumption.
  destruct I4. constructor; cbn; assumption.
Qed.
Lemma keepJ_down c : 0 <= c < 4294967296 -> keepJ (mod_ses (set_f_cnt_down c)).
Proof.
  intro Hc. apply keepJ_modify. intros s ([I1 I2 I3 I4 I5 I6] & Hr). split; [|exact Hr]. constructor; try assumption.
  destruct I4. constructor; cbn; assumption.
Qed.
Lemma keepJ_snr c : -128 <= c < 128 -> keepJ (mod_stk (set_current_snr c)).
Proof.
  intro Hc. apply keepJ_modify. intros s ([I1 I2 I3 I4 I5 I6] & Hr). split; [|exact Hr]. constructor; try assumption.
  destruct I5. constructor; cbn; assumption.
Qed.
Lemma keepJ_update f : 0 <= f < 65536 -> keepJ (update_f_cnt_down f).
Proof.
  intro Hf. unfold update_f_cnt_down. cbv zeta. apply keepJ_bind; [keepJ|]. intro cur.
  assert (U : forall x, 0 <= u32 x < 4294967296) by (intro x; apply Z.mod_pos_bound; lia).
  destruct (cur =? 0); [apply keepJ_bind; [apply keepJ_down; lia|intro; keepJ]|].
  destruct (_ =? 0); [keepJ|]. destruct (_ <=? _); (apply keepJ_bind; [apply keepJ_down; apply U|intro; keepJ]).
Qed.

Lemma commands_rel n h s : J s -> 0 <= n < 16 ->
  rel (mac_handle_commands_re E R 8 n h s) ((cmds <- frame_read 8 n ;; mac_handle_commands E cmds) h s).
Proof.
  intros (HI & Hr) Hn. unfold mac_handle_commands_re.
  pose proof (tk_frame _ (iv_stk _ HI)) as Hf. fold (frame s) in Hf. assert (Hf' : len (frame s) = 255) by (unfold len; lia).
  destruct (loop_post (Z.to_nat n) 8 (8 + n) h s HI Hr) as ([] & s1 & es & X & _ & K & Q); [lia|lia|lia|]. rewrite X.
  bstep ltac:(apply frame_read_ok; lia).
  destruct (mac_handle_commands_ok E (sub (frame s) 8 n) h s HE Hns HI Hr) as (M1 & M2 & M3 & M4); [apply bytes_sub; exact (tk_frameb _ (iv_stk _ HI))|].
  rewrite M1. split; [reflexivity|]. split.
  - eapply kept_trans; [apply kept_sym, macfr_kept; exact M3|exact K].
  - rewrite Q, (mac_evs_out _ M4). reflexivity.
Qed.

Lemma data_rel p h s : J s -> -128 <= pk_snr p < 128 -> rel (handle_data_msg_re E R p h s) (handle_data_msg E p h s).
Proof.
  intros Hj Hsnr. revert h s Hj. unfold handle_data_msg_re, handle_data_msg. cbv zeta. intros h0 s0. destruct (pk_size p <? 12); [intros; apply rel_refl|].
  revert h0 s0. apply same_bind; [keepJ|]. intros mhdr h1 s1.
  destruct (negb (Z.land (Z.shiftr mhdr 0) 3 =? 0)); [intros; apply rel_refl|].
  destruct (_ && _); [intros; apply rel_refl|].
  revert h1 s1. apply same_bind; [destruct (_ =? _); [apply keepJ_ack|keepJ]|]. intros _.
  do 6 (apply same_bind; [keepJ|]; intro). intros h2 s2.
  destruct (negb _); [intros; apply rel_refl|].
  revert h2 s2. apply same_bind; [keepJ|]. intros ctrl h3 s3. destruct (_ <? _); [intros; apply rel_refl|].
  revert h3 s3. do 2 (apply same_bind; [keepJ|]; intro).
  apply same_bind; [apply keepJ_update; apply Z.mod_pos_bound; lia|]. intros fresh h4 s4.
  destruct (negb fresh); [intros; apply rel_refl|]. revert h4 s4. apply same_bind; [apply keepJ_snr; exact Hsnr|]. intros _ h5 s5 Hj.
  apply rel_bind.
  { destruct (0 <? Z.land ctrl 15); [|apply rel_refl]. apply commands_rel; [exact Hj|]. rewrite land_15. apply Z.mod_pos_bound. lia. }
  intros _ k k' t t' K. refine ((_ : sim _ _) k k' t t' K). clear.
  apply sim_bind; [sim|]. intros [[p1 pld] sz].
  apply sim_bind; [sim|intro nwk]. apply sim_bind; [apply sim_mic|intro mic]. apply sim_bind; [sim|intro got].
  destruct (negb _); [sim|]. apply sim_bind; [|intro; unfold adr_handle_downlink; sim].
  destruct (0 <? sz); [|sim]. apply sim_bind; [sim|intro app]. destruct pld; [apply sim_encrypt|sim].
Qed.
(** handle_downlink up to the end of the callback's call *)
Definition downlink_pre (e : err) : C unit :=
  deref_hal ;;;
  p1 <- (if is_ERR_NO e then
           rx <- query (e_pkt E) RRead ;;
           frame_memcpy 0 (rx_data rx) (len (rx_data rx)) ;;;
           ret (Mk_pkt (Some 0) (len (rx_data rx)) 0 (rx_rssi rx) (rx_snr rx))
         else ret (Mk_pkt None 0 0 0 0)) ;;
  emit RSleep ;;;
  '(e', mtype, p2) <-
    (if is_ERR_NO e then
       b0 <- frame_get 0 ;;
       let mtype := Z.land (Z.shiftr b0 5) 7 in
       join <- get_stk uw_is_join_state ;;
       (if (join : bool) then
          r <- handle_join_msg E p1 ;; ret (r, mtype, p1)
        else
          '(r, p') <- handle_data_msg_re E R p1 ;; ret (r, mtype, p'))
     else ret (e, MTYPE_JOIN_REQUEST, p1)) ;;
  mod_stk (set_uw_is_join_state false) ;;;
  v <- view_of p2 ;;
  emit (CbDown e' mtype v).
Lemma pre_react e h s : handle_downlink_re E R e h s = (downlink_pre e ;;; react E R) h s.
Proof.
  unfold handle_downlink_re, downlink_pre. do 4 (rewrite bind_bind; apply bind_ext; [reflexivity|]; intros ? ? ? _; cbv zeta).
  destruct a2 as [[e' t] p]. do 2 (rewrite bind_bind; apply bind_ext; [reflexivity|]; intros ? ? ? _). reflexivity.
Qed.
Lemma pre_endcb e : endcb (downlink_pre e).
Proof.
  unfold downlink_pre. do 3 (apply endcb_bind; intro). apply endcb_bind. intros [[e' t] p].
  do 2 (apply endcb_bind; intro). intros h s r s' es H. inversion H. exists [], e', t, a3. reflexivity.
Qed.
Lemma keepJ_rx h s : J s -> exists s', frame_memcpy 0 (rx_data (e_pkt E h)) (len (rx_data (e_pkt E h))) (h ++ [RRead (e_pkt E h)]) s = Ok (tt, s', []) /\ J s'.
Proof.
  intros (HI & Hr). pose proof (ok_pkt_len E HE h) as Hl. pose proof (ok_pkt_byte E HE h) as Hb.
  pose proof (rx_state_Inv _ s HI Hb Hl) as HI1. pose proof (tk_frame _ (iv_stk _ HI)) as Hf. fold (frame s) in Hf.
  eexists. split; [apply frame_memcpy_ok; unfold len; lia|].
  unfold len. rewrite Nat2Z.id, firstn_all. split; [|exact Hr].
  unfold blit. cbn [Z.to_nat firstn app Nat.add]. exact HI1.
Qed.
Lemma downlink_rel e h s : J s -> rel (downlink_pre e h s) (handle_downlink E e h s).
Proof.
  intro Hj. unfold downlink_pre, handle_downlink. revert h s Hj. apply same_bind; [keepJ|]. intros _ h s Hj. cbv zeta.
  assert (Tail : forall (x y : C (err * Z * pkt)) k k' t t', rel (x k t) (y k' t') ->
    rel (('(e', mtype, p2) <- x ;; mod_stk (set_uw_is_join_state false) ;;; v <- view_of p2 ;; emit (CbDown e' mtype v)) k t)
        (('(e', mtype, p2) <- y ;; mod_stk (set_uw_is_join_state false) ;;; v <- view_of p2 ;; emit (CbDown e' mtype v)) k' t')).
  { intros x y k k' t t' X. apply rel_bind; [exact X|]. intros [[e' mt] p2] k1 k1' t1 t1' K.
    refine ((_ : sim _ _) k1 k1' t1 t1' K). clear. apply sim_bind; [|intro].
    - apply sim_modify. intros ? ? []. constructor; cbn; try assumption; reflexivity.
    - apply sim_bind; [unfold view_of; sim|intro; sim]. }
  destruct (is_ERR_NO e).
  - rewrite !bind_bind, !bind_query. destruct (keepJ_rx h s Hj) as (s1 & X & Hj1).
    apply rel_addev. rewrite !bind_bind. rewrite !(bind_ok0 _ _ _ _ _ _ X), !bind_ret, !bind_emit. apply rel_addev.
    set (p := Mk_pkt (Some 0) (len (rx_data (e_pkt E h))) 0 (rx_rssi (e_pkt E h)) (rx_snr (e_pkt E h))).
    apply Tail. generalize ((h ++ [RRead (e_pkt E h)]) ++ [RSleep]) as k. intro k. revert k s1 Hj1 X.
    intros k s1 Hj1 _. revert k s1 Hj1. apply same_bind; [keepJ|]. intro b. cbv zeta. apply same_bind; [keepJ|]. intros j k t Hj1.
    destruct j; [apply rel_refl|]. apply rel_bind.
    + apply data_rel; [exact Hj1|]. apply (ok_pkt_snr E HE).
    + intros [r p'] k1 k1' t1 t1' K. apply sim_ret. exact K.
  - rewrite !bind_ret, !bind_emit. apply rel_addev. apply Tail. apply rel_refl.
Qed.

Lemma tx_done_rel h s : Inv s -> uw_state (s_stk s) = TX -> rel (evt_tx_done_re E R h s) (evt_tx_done E h s).
Proof.
  intros HI Hst.
  assert (Hr : uw_region (s_stk s) <> None) by (apply (tk_init _ (iv_stk _ HI)); rewrite Hst; discriminate).
  rewrite (tx_done_ok E h s HI Hr). pose proof (tx_done_Inv E h s HE HI Hst) as Hend.
  destruct (uw_region (s_stk s)) as [r|] eqn:Er; [|congruence].
  unfold evt_tx_done_re. msteps. bstep ltac:(apply (deref_hal_ok r); exact Er). msteps.
  rewrite !addev_addev, <- !app_assoc. cbn [app].
  set (s1 := on_stk (set_uw_state RX1) s).
  pose proof (cur_dr_range s HI) as Hdr. pose proof (tk_off _ (iv_stk _ HI)) as Ho.
  erewrite (bind_ok0 _ _ _ s1 tt (on_stk (set_pkt_params
     (if uw_rx1_offset (s_stk s) =? 0 then pkt_params (s_stk s) else set_sf_bw (6 - rx1_dr s, 0) (pkt_params (s_stk s)))) s1)).
  2: { change (uw_rx1_offset (s_stk s1)) with (uw_rx1_offset (s_stk s)).
       destruct (Z.eqb_spec (uw_rx1_offset (s_stk s)) 0) as [E0|E0]; cbn [negb].
       - unfold s1. destruct s as [a b c d [] g]. reflexivity.
       - bstep ltac:(apply get_current_dr_ok). change (cur_dr s1) with (cur_dr s).
         assert (Hx : (if cur_dr s <? uw_rx1_offset (s_stk s) then DR_0 else cur_dr s - uw_rx1_offset (s_stk s)) = rx1_dr s).
         { unfold rx1_dr, DR_0. destruct (Z.ltb_spec (cur_dr s) (uw_rx1_offset (s_stk s))); lia. }
         change (uw_rx1_offset (s_stk s1)) with (uw_rx1_offset (s_stk s)). rewrite Hx.
         bstep ltac:(apply dr_table_ok; unfold rx1_dr; lia). reflexivity. }
  msteps. unfold mac_on_tx_complete_re. rewrite ?addev_addev. cbn [app]. msteps.
  cbn [on_stk on_mac s_mac s_stk set_pkt_params pkt_params]. change (s_mac s1) with (s_mac s).
  destruct (mac_save_dev_time (s_mac s)) eqn:Es; cbn [andb].
  2: { cbn [addev ret rel]. split; [reflexivity|]. split; [constructor; reflexivity|]. unfold tx_done_evs, tx_done_time. rewrite Es. reflexivity. }
  msteps. cbn [on_stk on_mac s_mac s_stk]. change (s_mac s1) with (s_mac s). cbn [set_mac_save_dev_time mac_cbs].
  destruct (mac_cbs (s_mac s)) as [c|] eqn:Ec; [|exact I].
  destruct (has_get_device_time c) eqn:Eg.
  - msteps.
    match goal with |- rel (addev _ (addev [?e] (bind _ _ (?k ++ _) ?t))) _ => destruct (react_ok k e t ltac:(discriminate)) as (s' & A & B & D) end.
    { destruct HI as [Hch Had Hm Hs Hk Hcs]. destruct Hend as [Gch Gad Gm Gs Gk Gcs].
      constructor; cbn [on_mac on_stk s_ch s_adr s_mac s_ses s_stk s_cs]; try assumption; destruct Hm; constructor; cbn; assumption. }
    erewrite bind_ok0; [|exact A]. cbn [addev app]. cbn. split; [reflexivity|]. split.
    + eapply kept_trans; [|eapply kept_trans; [exact D|]]; constructor; reflexivity.
    + unfold tx_done_evs, tx_done_time. rewrite Es, Ec, Eg. reflexivity.
  - cbn. split; [reflexivity|]. split; [constructor; reflexivity|]. unfold tx_done_evs, tx_done_time. rewrite Es, Ec, Eg. reflexivity.
Qed.

Lemma handler_rel m h s : Inv s ->
  (rel (evt_handler_re E R m h s) (evt_handler E m h s) /\ forall a s' es, evt_handler E m h s = Ok (a, s', es) -> callbacks es = []) \/
  exists pre, evt_handler_re E R m h s = (pre ;;; react E R) h s /\ rel (pre h s) (evt_handler E m h s) /\ endcb pre /\
    forall a s' es, evt_handler E m h s = Ok (a, s', es) -> callbacks es <> [].
Proof.
  intro HI. unfold evt_handler_re, evt_handler. rewrite !bind_get_stk.
  assert (Hn : forall (k : C unit), nocb k -> forall a s' es, k h s = Ok (a, s', es) -> callbacks es = []) by (intros k K; apply K).
  assert (Hc : forall (k : C unit), hascb k -> forall a s' es, k h s = Ok (a, s', es) -> callbacks es <> []) by (intros k K; apply K).
  assert (Jidle : uw_state (s_stk s) <> NOT_INIT -> J (on_stk (set_uw_state IDLE) s)).
  { intro Hst. assert (Hr : uw_region (s_stk s) <> None) by (apply (tk_init _ (iv_stk _ HI)); exact Hst).
    split; [|exact Hr]. destruct HI as [Hch Had Hm Hs Hk Hcs]. constructor; try assumption.
    destruct Hk. constructor; cbn; try assumption; [auto|intros [X|[X|X]]; discriminate X]. }
  assert (Hr0 : uw_state (s_stk s) <> NOT_INIT -> exists r, uw_region (s_stk s) = Some r).
  { intro Hst. destruct (uw_region (s_stk s)) as [r|] eqn:Er; [eauto|]. destruct (tk_init _ (iv_stk _ HI) Hst) as (X & _). congruence. }
  destruct (uw_state (s_stk s)) eqn:Est.
  - left. split; [apply rel_refl|]. apply Hn. nocb.
  - left. split; [apply rel_refl|]. apply Hn. nocb.
  - left. destruct (irq_has m IRQF_TX_DONE).
    + split; [apply tx_done_rel; assumption|]. apply Hn. apply tx_done_nocb.
    + split; [apply rel_refl|]. apply Hn. nocb.
  - destruct (irq_has m IRQF_RX_TIMEOUT).
    { left. split; [apply rel_refl|]. apply Hn. apply rx1_timeout_nocb. }
    destruct (irq_has m IRQF_RX_DONE).
    2: { left. split; [apply rel_refl|]. apply Hn. nocb. }
    right. destruct Hr0 as (r & Er); [discriminate|].
    exists (deref_hal ;;; emit (TStop TIMER_RX2) ;;; mod_stk (set_uw_state IDLE) ;;; (if irq_has m IRQF_CRC_ERROR then downlink_pre ERR_RX_CRC else downlink_pre ERR_NO)).
    split; [|split; [|split]].
    + do 3 (rewrite bind_bind; apply bind_ext; [reflexivity|]; intros ? ? ? _). destruct (irq_has m IRQF_CRC_ERROR); apply pre_react.
    + rewrite !(bind_ok0 _ _ _ _ _ _ (deref_hal_ok r h s Er)), !bind_emit, !bind_mod_stk. apply rel_addev.
      destruct (irq_has m IRQF_CRC_ERROR); apply downlink_rel; apply Jidle; discriminate.
    + do 3 (apply endcb_bind; intro). destruct (irq_has m IRQF_CRC_ERROR); apply pre_endcb.
    + apply Hc. do 3 (apply hascb_bind; intro). destruct (irq_has m IRQF_CRC_ERROR); apply downlink_hascb.
  - destruct (irq_has m IRQF_RX_TIMEOUT).
    { right. exists (mod_stk (set_uw_state IDLE) ;;; downlink_pre ERR_RX_TIMEOUT). split; [|split; [|split]].
      - rewrite bind_bind. apply bind_ext; [reflexivity|]. intros ? ? ? _. apply pre_react.
      - rewrite !bind_mod_stk. apply downlink_rel; apply Jidle; discriminate.
      - apply endcb_bind; intro. apply pre_endcb.
      - apply Hc. apply hascb_bind. intro. apply downlink_hascb. }
    destruct (irq_has m IRQF_RX_DONE).
    2: { left. split; [apply rel_refl|]. apply Hn. nocb. }
    right. exists (mod_stk (set_uw_state IDLE) ;;; (if irq_has m IRQF_CRC_ERROR then downlink_pre ERR_RX_CRC else downlink_pre ERR_NO)).
    split; [|split; [|split]].
    + rewrite bind_bind. apply bind_ext; [reflexivity|]. intros ? ? ? _. destruct (irq_has m IRQF_CRC_ERROR); apply pre_react.
    + rewrite !bind_mod_stk. destruct (irq_has m IRQF_CRC_ERROR); apply downlink_rel; apply Jidle; discriminate.
    + apply endcb_bind; intro. destruct (irq_has m IRQF_CRC_ERROR); apply pre_endcb.
    + apply Hc. apply hascb_bind; intro. destruct (irq_has m IRQF_CRC_ERROR); apply downlink_hascb.
Qed.
End Settings.
Lemma exec_hist E w ops tr w' : exec E w ops tr w' -> w_hist w' = w_hist w ++ all_evs tr.
Proof.
  induction 1 as [w|w o ops v es w1 tr w2 Hs Hx IH]; [rewrite app_nil_r; reflexivity|].
  unfold step in Hs. destruct (call E o (w_hist w) (w_st w)) as [[[v0 s0] e0]|]; [|discriminate Hs]. injection Hs as _ <- <-.
  rewrite IH. cbn [w_hist all_evs flat_map evs_of snd]. rewrite app_assoc. reflexivity.
Qed.
Lemma outside_cb es : callbacks (outside es) = callbacks es.
Proof. induction es as [|e es IH]; [reflexivity|]. destruct e; cbn [outside filter is_handler negb callbacks]; rewrite <- IH; reflexivity. Qed.
