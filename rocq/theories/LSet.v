(** LSet.v -- which interrupts do not touch which settings (for C99) *)
From Verif Require Import SpecSet LIsr LReent PUp PIrq PStrict LSplit.
Open Scope m_scope.
Local Opaque ind.

Ltac ind := repeat match goal with
  | |- ind _ _ _ (bind _ _) => apply ind_bind; [|intro]
  | |- ind _ _ _ (ret _) => apply ind_ret
  | |- ind _ _ _ (fail _) => apply ind_fail
  | |- ind _ _ _ (gets _) => apply ind_gets; intros; reflexivity
  | |- ind _ _ _ (emit _) => apply ind_emit
  | |- ind _ _ _ (query _ _) => apply ind_query
  | |- ind _ _ _ (modify _) => apply ind_modify; [let q := fresh in intros ? q; exact q|intros; reflexivity|intros; reflexivity]
  | |- ind _ _ _ (match ?x with _ => _ end) => destruct x
  | |- ind _ _ _ (let _ := _ in _) => cbv zeta
  | |- ind _ _ _ _ => progress unfold frame_get, frame_read, frame_put, frame_memcpy, arr_get, arr_set, arr_memcpy, get_stk, mod_stk, get_ses, mod_ses, get_mac, mod_mac,
      get_adr, mod_adr, get_ch, mod_ch, deref_hal, mod_params, as_unit, shl24
  end.
(** ** The OTAA identifiers, the default transmit power and the ADR limits: no handler looks at them *)
Definition g_eui (s : st) := ((uw_dev_eui (s_stk s), uw_app_eui (s_stk s)), (default_tx_power (s_stk s), (ack_limit (s_adr s), ack_delay (s_adr s)))).
Definition p_eui (x : (list Z * list Z) * (Z * (Z * Z))) (s : st) : st :=
  on_stk (fun t => set_uw_dev_eui (fst (fst x)) (set_uw_app_eui (snd (fst x)) (set_default_tx_power (fst (snd x)) t)))
  (on_adr (fun a => set_ack_limit (fst (snd (snd x))) (set_ack_delay (snd (snd (snd x))) a)) s).
Definition anyst (s : st) : Prop := True.
Notation indE := (ind g_eui p_eui anyst).
Lemma indE_bit_is_set i : indE (bit_is_set i). Proof. unfold bit_is_set. ind. Qed.
Lemma indE_bit_set i : indE (bit_set i). Proof. unfold bit_set. ind. Qed.
Lemma indE_bit_clear i : indE (bit_clear i). Proof. unfold bit_clear. ind. Qed.
Lemma indE_enable_all n : forall i, indE (channels_enable_all_loop n i).
Proof. induction n as [|n IH]; intro i; cbn [channels_enable_all_loop]; ind; first [apply IH|apply indE_bit_set]. Qed.
Lemma indE_exist i : indE (channel_is_exist i). Proof. unfold channel_is_exist. ind. Qed.
Lemma indE_rmax n : forall i, indE (recompute_max n i).
Proof. induction n as [|n IH]; intro i; cbn [recompute_max]; ind; first [apply IH|apply indE_bit_is_set]. Qed.
Lemma indE_enable i b : indE (uwan_enable_channel i b).
Proof. unfold uwan_enable_channel. ind; first [apply indE_bit_set|apply indE_bit_clear|apply indE_rmax]. Qed.
Lemma indE_channel i b : indE (uwan_set_channel i b).
Proof. unfold uwan_set_channel. ind; apply indE_enable. Qed.
Lemma indE_rx2 f d : indE (uwan_set_rx2 f d). Proof. unfold uwan_set_rx2. ind. Qed.
Lemma indE_off d : indE (uwan_set_rx1_dr_offset d). Proof. unfold uwan_set_rx1_dr_offset. ind. Qed.
Lemma indE_delay d : indE (uwan_set_rx1_delay d). Proof. unfold uwan_set_rx1_delay. ind. Qed.
Lemma indE_cflist n : forall i c l o, indE (cflist_loop n i c l o).
Proof. induction n as [|n IH]; intros i c l o; cbn [cflist_loop]; ind; first [apply IH|apply indE_enable|apply indE_channel]. Qed.
Lemma indE_region_cf r l : indE (region_handle_cflist r l).
Proof. unfold region_handle_cflist, region_86x_handle_cflist. ind; apply indE_cflist. Qed.
Lemma indE_mask n : forall i m d, indE (ch_mask_loop n i m d).
Proof. induction n as [|n IH]; intros i m d; cbn [ch_mask_loop]; ind; first [apply IH|apply indE_enable|apply indE_exist]. Qed.
Lemma indE_region_mask r m c d : indE (region_handle_adr_ch_mask r m c d).
Proof. unfold region_handle_adr_ch_mask, region_86x_handle_adr_ch_mask, channels_enable_all. ind; first [apply indE_mask|apply indE_enable_all]. Qed.
Lemma indE_enq c d : indE (mac_enqueue c d). Proof. unfold mac_enqueue. ind. Qed.
Lemma indE_adr a b c : indE (adr_handle_link_req a b c).
Proof. unfold adr_handle_link_req, set_nb_trans, reset_nb_trans, set_tx_power. ind; first [apply indE_region_mask|apply indE_enq|idtac]. Qed.
Lemma indE_dispatch c : forall l, (forall h a b, In (h, a, b) l -> forall x, indE (h x)) -> forall rest, indE (mac_dispatch l c rest).
Proof.
  induction l as [|[[h a] b] l IH]; intros H rest; cbn [mac_dispatch]; ind.
  - apply (H h a b). left. reflexivity.
  - apply IH. intros h' a' b' Hi. apply (H h' a' b'). right. exact Hi.
Qed.
Lemma indE_commands E : forall h a b, In (h, a, b) (mac_commands E) -> forall x, indE (h x).
Proof.
  intros h a b H x. unfold mac_commands in H. cbn [In] in H.
  repeat (destruct H as [H|H]; [injection H as <- _ _|]); [..|contradiction H];
    unfold link_check, link_adr, duty_cycle, rx_param_setup, dev_status, new_channel, rx_timing_setup, tx_param_setup, di_channel, device_time, get_snr;
    ind; first [apply indE_enq|apply indE_adr|apply indE_off|apply indE_rx2|apply indE_channel|apply indE_delay].
Qed.
Lemma indE_mac E n : forall l, indE (mac_handle_loop E n l).
Proof.
  induction n as [|n IH]; intros [|c l]; cbn [mac_handle_loop]; ind; [|apply IH].
  apply indE_dispatch. apply indE_commands.
Qed.
Lemma indE_xor n : forall i b p k, indE (xor_loop n i b p k).
Proof. induction n as [|n IH]; intros i b p k; cbn [xor_loop]; ind. apply IH. Qed.
Lemma indE_encl E n : forall k a i b p z, indE (encrypt_loop E n k a i b p z).
Proof. induction n as [|n IH]; intros k a i b p z; cbn [encrypt_loop]; ind; try apply indE_xor; apply IH. Qed.
Lemma indE_enc E b z k d : indE (encrypt_payload E b z k d).
Proof. unfold encrypt_payload. ind. apply indE_encl. Qed.
Lemma indE_mic E n k d b : indE (calc_mic E n k d b). Proof. unfold calc_mic. ind. Qed.
Lemma indE_data E p : indE (handle_data_msg E p).
Proof.
  unfold handle_data_msg, update_f_cnt_down, adr_handle_downlink, mac_handle_commands. ind; first [apply indE_mac|apply indE_enc|apply indE_mic|idtac].
Qed.
Lemma indE_ses a u d n p : indE (uwan_set_session a u d n p). Proof. unfold uwan_set_session. ind. Qed.
Lemma indE_join E p : indE (handle_join_msg E p).
Proof. unfold handle_join_msg, frame_aes, derive_session_key. ind; first [apply indE_mic|apply indE_region_cf|apply indE_ses|idtac]. Qed.
Lemma indE_down E e : indE (handle_downlink E e).
Proof. unfold handle_downlink, view_of. ind; first [apply indE_join|apply indE_data|idtac]. Qed.
Lemma indE_handler E m : indE (evt_handler E m).
Proof. unfold evt_handler, evt_tx_done, evt_rx1_timeout, get_current_dr, uwan_adr_is_enabled, mac_on_tx_complete. ind; try apply indE_down. Qed.
Lemma indE_calls E ops : Forall hw ops -> indE (calls E ops).
Proof.
  intro H. induction H as [|o ops Ho Hops IH]; cbn [calls]; [apply ind_ret|].
  destruct o; try contradiction Ho; cbn [call]; unfold uwan_timer_callback; ind; first [apply IH|apply indE_handler|idtac].
Qed.

(** ** Without packets: settings no such handler looks at *)
Section Quiet.
Context {X : Type} (get : st -> X) (put : X -> st -> st) (P : st -> Prop).
Notation indQ := (ind get put P).
Context (E : env) (H_txd : indQ (evt_tx_done E)) (H_rx1 : indQ evt_rx1_timeout) (H_tmo : indQ (handle_downlink E ERR_RX_TIMEOUT))
  (H_state : indQ (get_stk uw_state)) (H_idle : indQ (mod_stk (set_uw_state IDLE))) (H_timer : forall t, indQ (uwan_timer_callback t)).
Lemma indQ_handler m : Z.land m 2 = 0 -> indQ (evt_handler E m).
Proof.
  intro Hm. unfold evt_handler. apply ind_bind; [exact H_state|]. intros []; try apply ind_ret; unfold irq_has, IRQF_RX_DONE; rewrite ?Hm; change (negb (0 =? 0)) with false; cbv iota;
    (match goal with |- ind _ _ _ (if ?b then _ else _) => destruct b end); try apply ind_ret; try exact H_txd; try exact H_rx1.
  apply ind_bind; [exact H_idle|intro; exact H_tmo].
Qed.
Lemma indQ_calls ops : Forall hw ops -> no_rx_done ops -> indQ (calls E ops).
Proof.
  intro H. induction H as [|o ops Ho Hops IH]; intro Hn; cbn [calls]; [apply ind_ret|]. inversion Hn as [|? ? N1 N2]. subst.
  apply ind_bind; [|intro; apply IH; exact N2].
  destruct o; try contradiction Ho; cbn [call]; unfold as_unit; (apply ind_bind; [|intro; apply ind_ret]); [apply H_timer|apply indQ_handler; exact N1].
Qed.
End Quiet.

(** channels *)
Definition g_ch (s : st) := s_ch s.
Definition p_ch (x : chans) (s : st) : st := on_ch (fun _ => x) s.
Ltac quiet := unfold evt_tx_done, evt_rx1_timeout, get_current_dr, uwan_adr_is_enabled, mac_on_tx_complete, handle_downlink, view_of, uwan_timer_callback; cbn [is_ERR_NO]; intros; ind.
Lemma indCh_calls E ops : Forall hw ops -> no_rx_done ops -> ind g_ch p_ch anyst (calls E ops).
Proof. apply indQ_calls; quiet. Qed.
(** number of transmissions *)
Definition g_nb (s : st) := (uw_nb_trans (s_stk s), default_nb_trans (s_stk s)).
Definition p_nb (x : Z * Z) (s : st) : st := on_stk (fun t => set_uw_nb_trans (fst x) (set_default_nb_trans (snd x) t)) s.
Lemma indNb_calls E ops : Forall hw ops -> no_rx_done ops -> ind g_nb p_nb anyst (calls E ops).
Proof. apply indQ_calls; quiet. Qed.
(** the session and the default data rate, when the RX1 offset is 0 *)
Definition g_ses (s : st) := (s_ses s, default_dr (s_stk s)).
Definition p_ses (x : session * Z) (s : st) : st := on_ses (fun _ => fst x) (on_stk (set_default_dr (snd x)) s).
Definition offset0 (s : st) : Prop := uw_rx1_offset (s_stk s) = 0.
Local Transparent ind.
Lemma indSes_txd E : ind g_ses p_ses offset0 (evt_tx_done E).
Proof.
  unfold evt_tx_done. do 6 (apply ind_bind; [ind|intro]).
  intros h s p.
  assert (Q : forall s, offset0 s -> forall h, (off <- get_stk uw_rx1_offset ;;
    (if negb (off =? 0) then dr_id <- get_current_dr ;; let dr_id := if dr_id <? off then DR_0 else dr_id - off in d <- arr_get uw_dr_table dr_id ;; mod_params (set_sf_bw d) else ret tt) ;;;
    mod_params (set_iq true) ;;; p <- get_stk pkt_params ;; emit (RSetup p) ;;; mac_on_tx_complete E) h s =
    (mod_params (set_iq true) ;;; p <- get_stk pkt_params ;; emit (RSetup p) ;;; mac_on_tx_complete E) h s).
  { intros t Ht h'. rewrite bind_get_stk, Ht. cbn [Z.eqb negb]. erewrite bind_ok0; [|reflexivity]. reflexivity. }
  rewrite (Q s p). assert (K : ind g_ses p_ses offset0 (mod_params (set_iq true) ;;; p <- get_stk pkt_params ;; emit (RSetup p) ;;; mac_on_tx_complete E)).
  { unfold mac_on_tx_complete. ind. }
  specialize (K h s p). destruct ((mod_params (set_iq true) ;;; p <- get_stk pkt_params ;; emit (RSetup p) ;;; mac_on_tx_complete E) h s) as [[[v s'] es]|].
  - destruct K as (K1 & K2 & K3). split; [exact K1|]. split; [exact K2|]. intro x. rewrite Q by exact p. apply K3.
  - intro x. rewrite Q by exact p. apply K.
Qed.
Local Opaque ind.
Lemma indSes_calls E ops : Forall hw ops -> no_rx_done ops -> ind g_ses p_ses offset0 (calls E ops).
Proof. apply indQ_calls; [apply indSes_txd|quiet..]. Qed.
(** the second window, without the end of the first *)
Definition g_rx2 (s : st) := (uw_rx2_frequency (s_stk s), uw_rx2_dr (s_stk s)).
Definition p_rx2 (x : Z * Z) (s : st) : st := on_stk (fun t => set_uw_rx2_frequency (fst x) (set_uw_rx2_dr (snd x) t)) s.
Lemma indRx2_calls E ops : Forall hw ops -> no_rx_done ops -> no_timeout ops -> ind g_rx2 p_rx2 anyst (calls E ops).
Proof.
  intro H. induction H as [|o ops Ho Hops IH]; intros Hn Ht; cbn [calls]; [apply ind_ret|]. inversion Hn as [|? ? N1 N2]. inversion Ht as [|? ? T1 T2]. subst.
  apply ind_bind; [|intro; apply IH; assumption].
  destruct o; try contradiction Ho; cbn [call]; unfold as_unit; (apply ind_bind; [|intro; apply ind_ret]); [quiet|].
  unfold evt_handler, irq_has, IRQF_RX_DONE, IRQF_RX_TIMEOUT. rewrite N1, T1. cbn [Z.eqb negb]. quiet.
Qed.

(** ** Moving the interrupts past the rest of the call *)
Section Move.
Context {X : Type} (get : st -> X) (put : X -> st -> st) (P : st -> Prop).
Context (get_put : forall x s, get (put x s) = x) (put_put : forall x y s, put x (put y s) = put x s) (put_get : forall s, put (get s) s = s) (P_put : forall x s, P s -> P (put x s)).
Notation indM := (ind get put P).
Notation locM := (loc get put).
Notation eqvM := (eqv P).
Lemma eqv_same {A} (f g : C A) : (forall h s, f h s = g h s) -> eqvM f g.
Proof. intros H h s _ r. rewrite H. reflexivity. Qed.
Lemma push {A B D} (c : C unit) (m : C A) (f : A -> C D) (g : A -> C B) (k : B -> C D) : indM c -> locM m ->
  (forall a, eqvM (c ;;; f a) (bind (g a) k)) -> eqvM (c ;;; bind m f) (bind (bind m g) k).
Proof.
  intros Hc Hm H. eapply eqv_trans; [apply (swap get put P get_put c m f Hc Hm)|].
  eapply eqv_trans; [apply (eqv_loc get put P P_put m _ (fun a => bind (g a) k) Hm H)|].
  apply eqv_same. intros. symmetry. apply bind_assoc.
Qed.
Lemma pass {A B D} (m : C A) (f : A -> C D) (g : A -> C B) (k : B -> C D) : locM m ->
  (forall a, eqvM (f a) (bind (g a) k)) -> eqvM (bind m f) (bind (bind m g) k).
Proof.
  intros Hm H. eapply eqv_trans; [apply (eqv_loc get put P P_put m _ (fun a => bind (g a) k) Hm H)|].
  apply eqv_same. intros. symmetry. apply bind_assoc.
Qed.
Lemma last_push {A} (c : C unit) (m : C A) : indM c -> locM m -> eqvM (c ;;; m) (x <- m ;; c ;;; ret x).
Proof.
  intros Hc Hm. eapply eqv_trans; [|apply (swap get put P get_put c m (fun x => ret x) Hc Hm)].
  apply (eqv_ind get put P); [exact Hc|]. intros _. apply eqv_same. intros h s. unfold bind, ret. destruct (m h s) as [[[x s1] e1]|]; rewrite ?app_nil_r; reflexivity.
Qed.
Lemma last_ret {A} (c : C unit) (a : A) (k : A -> C A) : (forall h s, k a h s = (c ;;; ret a) h s) -> eqvM (c ;;; ret a) (bind (ret a) k).
Proof. intro H. apply eqv_same. intros h s. symmetry. erewrite bind_ok0; [apply H|reflexivity]. Qed.
Lemma merge {A} E a b (f : C A) (g : C A) : eqvM (calls E (a ++ b) ;;; f) g -> eqvM (calls E a ;;; (calls E b ;;; f)) g.
Proof.
  intro H. eapply eqv_trans; [|exact H]. apply eqv_same. intros h s. symmetry.
  transitivity (((calls E a ;;; calls E b) ;;; f) h s); [|apply bind_assoc]. apply LReent.bind_ext; [|reflexivity].
  clear. revert h s. induction a as [|o a IH]; intros h s; cbn [app calls].
  - symmetry. erewrite bind_ok0; [|reflexivity]. reflexivity.
  - rewrite bind_assoc. apply LReent.bind_ext; [reflexivity|]. intros. apply IH.
Qed.
Lemma pull {A B} (c : C unit) (m : C A) (f g : A -> C B) : indM c -> locM m -> (forall a, eqvM (f a) (c ;;; g a)) -> eqvM (bind m f) (c ;;; bind m g).
Proof.
  intros Hc Hm H. eapply eqv_trans; [apply (eqv_loc get put P P_put m f (fun a => c ;;; g a) Hm H)|].
  intros h s p r. symmetry. apply (swap get put P get_put c m g Hc Hm); exact p.
Qed.
End Move.
