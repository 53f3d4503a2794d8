(** LIsr.v -- lemmas about interrupted calls (for C93) *)
From Verif Require Import SpecIsr LReent PUp PIrq PStrict.
Open Scope m_scope.

(** ** What leaves the phase of the transaction and the data rate alone *)
Definition core (s : st) :=
  (uw_state (s_stk s), uw_rx1_offset (s_stk s), s_adr s, ses_dr (s_ses s), default_dr (s_stk s)).
Definition stay {A} (m : C A) : Prop := forall h s a s' es, m h s = Ok (a, s', es) -> core s' = core s.
Lemma stay_ret {A} (a : A) : stay (ret a).
Proof. intros h s r s' es H. injection H as _ <- _. reflexivity. Qed.
Lemma stay_fail {A} k : stay (@fail st ev A k).
Proof. intros h s r s' es H. discriminate H. Qed.
Lemma stay_gets {A} (f : st -> A) : stay (gets f).
Proof. intros h s r s' es H. injection H as _ <- _. reflexivity. Qed.
Lemma stay_emit e : stay (emit e).
Proof. intros h s r s' es H. inversion H. reflexivity. Qed.
Lemma stay_query {A} (o : list ev -> A) k : stay (query o k).
Proof. intros h s r s' es H. inversion H. reflexivity. Qed.
Lemma stay_modify f : (forall s, core (f s) = core s) -> stay (@modify st ev f).
Proof. intros K h s r s' es H. inversion H. apply K. Qed.
Lemma stay_bind {A B} (m : C A) (f : A -> C B) : stay m -> (forall a, stay (f a)) -> stay (bind m f).
Proof.
  intros Hm Hf h s r s' es H. unfold bind in H. destruct (m h s) as [[[x s1] e1]|] eqn:Em; [|discriminate].
  destruct (f x (h ++ e1) s1) as [[[y s2] e2]|] eqn:Ef; [|discriminate]. injection H as _ <- _.
  rewrite (Hf _ _ _ _ _ _ Ef). exact (Hm _ _ _ _ _ Em).
Qed.
Ltac stay := repeat match goal with
  | |- stay (bind _ _) => apply stay_bind; [|intro]
  | |- stay (ret _) => apply stay_ret
  | |- stay (fail _) => apply stay_fail
  | |- stay (gets _) => apply stay_gets
  | |- stay (emit _) => apply stay_emit
  | |- stay (query _ _) => apply stay_query
  | |- stay (modify _) => apply stay_modify; intro; reflexivity
  | |- stay (match ?x with _ => _ end) => destruct x
  | |- stay (let _ := _ in _) => cbv zeta
  | |- stay _ => assumption
  | |- stay _ => progress unfold frame_get, frame_read, frame_put, frame_memcpy, arr_get, arr_set, arr_memcpy, get_stk, mod_stk, get_ses, mod_ses, get_mac, mod_mac,
      get_adr, get_ch, mod_ch, deref_hal, mod_params, radio_tx, utils_get_random, bit_is_set, mac_get_payload_size, mac_get_payload, apply_tx_power,
      get_current_dr, uwan_adr_is_enabled, adr_get_req_bit, uwan_get_max_payload_size
  end.
Lemma stay_next_loop n : forall a b, stay (get_next_loop n a b).
Proof. induction n as [|n IH]; intros a b; cbn [get_next_loop]; stay; apply IH. Qed.
Lemma stay_next E : stay (channels_get_next E).
Proof. unfold channels_get_next. stay. apply stay_next_loop. Qed.
Lemma stay_puts bs : forall o, stay (frame_puts o bs).
Proof. induction bs as [|b bs IH]; intro o; cbn [frame_puts]; stay. apply IH. Qed.
Lemma stay_eui n : forall o, stay (put_eui_rev n o).
Proof. induction n as [|n IH]; intro o; cbn [put_eui_rev]; stay. apply IH. Qed.
Lemma stay_xor n : forall i b p k, stay (xor_loop n i b p k).
Proof. induction n as [|n IH]; intros i b p k; cbn [xor_loop]; stay. apply IH. Qed.
Lemma stay_encl E n : forall k a i b p z, stay (encrypt_loop E n k a i b p z).
Proof. induction n as [|n IH]; intros k a i b p z; cbn [encrypt_loop]; stay; try apply stay_xor; apply IH. Qed.
Lemma stay_enc E b z k d : stay (encrypt_payload E b z k d).
Proof. unfold encrypt_payload. stay. apply stay_encl. Qed.
Lemma stay_mic E n k d b : stay (calc_mic E n k d b).
Proof. unfold calc_mic. stay. Qed.
Ltac stays := stay; first [apply stay_next|apply stay_puts|apply stay_eui|apply stay_enc|apply stay_mic|idtac].

(** ** Interrupts in IDLE and interrupts during the transmission do nothing *)
Lemma calls_idle E ops h s : Forall hw ops -> uw_state (s_stk s) = IDLE -> calls E ops h s = Ok (tt, s, []).
Proof.
  intros H Hi. induction H as [|o ops Ho Hops IH]; cbn [calls]; [reflexivity|].
  erewrite bind_ok0; [exact IH|]. destruct o; try contradiction Ho; cbn [call]; unfold as_unit, uwan_timer_callback, evt_handler, get_stk, gets, bind, ret; rewrite Hi; reflexivity.
Qed.
Lemma calls_tx E ops h s : Forall hw ops -> no_tx_done ops -> uw_state (s_stk s) = TX -> calls E ops h s = Ok (tt, s, []).
Proof.
  intros H. revert h s. induction H as [|o ops Ho Hops IH]; intros h s Hn Hi; cbn [calls]; [reflexivity|]. inversion Hn as [|? ? N1 N2]. subst.
  erewrite bind_ok0; [exact (IH h s N2 Hi)|]. destruct o; try contradiction Ho; cbn [call]; unfold as_unit, uwan_timer_callback, evt_handler, get_stk, gets, bind, ret; rewrite Hi; [reflexivity|].
  unfold irq_has, IRQF_TX_DONE. rewrite N1. reflexivity.
Qed.

(** ** adr_handle_uplink before or after the interrupts *)
Definition aft (s : st) : st := with_adr (r_uplink_adr s) (with_ses (set_ses_dr (r_uplink_dr s) (s_ses s)) s).
Definition calm (s : st) : Prop := uw_rx1_offset (s_stk s) = 0 \/ adr_is_enabled (s_adr s) = false \/ backs_off s = false.
Definition omap {A} (r : res (A * st * list ev)) : res (A * st * list ev) :=
  match r with Ok (a, s, es) => Ok (a, aft s, es) | Undef k => Undef k end.
Definition comm {A} (m : C A) : Prop := forall h s, m h (aft s) = omap (m h s).
Definition like (s s' : st) : Prop := s_adr s' = s_adr s /\ s_ses s' = s_ses s /\ uw_rx1_offset (s_stk s') = uw_rx1_offset (s_stk s).
Lemma calm_like s s' : like s s' -> calm s -> calm s'.
Proof. intros (A & B & D) H. unfold calm, backs_off in *. rewrite A, B, D. exact H. Qed.
Lemma comm_ret {A} (a : A) : comm (ret a). Proof. intros h s. reflexivity. Qed.
Lemma comm_fail {A} k : comm (@fail st ev A k). Proof. intros h s. reflexivity. Qed.
Lemma comm_emit e : comm (emit e). Proof. intros h s. reflexivity. Qed.
Lemma comm_query {A} (o : list ev -> A) k : comm (query o k). Proof. intros h s. reflexivity. Qed.
Lemma comm_gets {A} (f : st -> A) : (forall s, f (aft s) = f s) -> comm (gets f).
Proof. intros H h s. unfold gets, omap. rewrite H. reflexivity. Qed.
Lemma comm_modify f : (forall s, f (aft s) = aft (f s)) -> comm (modify f).
Proof. intros H h s. unfold modify, omap. rewrite H. reflexivity. Qed.
Lemma comm_bind {A B} (m : C A) (f : A -> C B) : comm m -> (forall a, comm (f a)) -> comm (bind m f).
Proof.
  intros Hm Hf h s. unfold bind. rewrite (Hm h s). destruct (m h s) as [[[a s1] e1]|]; [|reflexivity]. cbn [omap].
  rewrite (Hf a (h ++ e1) s1). destruct (f a (h ++ e1) s1) as [[[b s2] e2]|]; reflexivity.
Qed.
Ltac comm := repeat match goal with
  | |- comm (bind _ _) => apply comm_bind; [|intro]
  | |- comm (ret _) => apply comm_ret
  | |- comm (fail _) => apply comm_fail
  | |- comm (gets _) => apply comm_gets; intro; reflexivity
  | |- comm (emit _) => apply comm_emit
  | |- comm (query _ _) => apply comm_query
  | |- comm (modify _) => apply comm_modify; intros [? ? ? ? ? ?]; reflexivity
  | |- comm (match ?x with _ => _ end) => destruct x
  | |- comm (let _ := _ in _) => cbv zeta
  | |- comm _ => progress unfold frame_get, frame_read, frame_put, frame_memcpy, arr_get, arr_set, arr_memcpy, get_stk, mod_stk, get_mac, mod_mac, deref_hal, mod_params, as_unit
  end.
Lemma comm_timer t : comm (uwan_timer_callback t).
Proof. unfold uwan_timer_callback. comm. Qed.
Lemma comm_rx1 : comm evt_rx1_timeout.
Proof. unfold evt_rx1_timeout. comm. Qed.
Lemma comm_timeout E : comm (handle_downlink E ERR_RX_TIMEOUT).
Proof. unfold handle_downlink, view_of. cbn [is_ERR_NO]. comm. Qed.
Lemma comm_txc E : comm (mac_on_tx_complete E).
Proof. unfold mac_on_tx_complete. comm. Qed.

Definition kcalm {A} (m : C A) : Prop := forall h s a s' es, m h s = Ok (a, s', es) -> like s s'.
Lemma like_refl s : like s s. Proof. repeat split. Qed.
Lemma like_trans s s1 s2 : like s s1 -> like s1 s2 -> like s s2.
Proof. intros (A & B & D) (A' & B' & D'). unfold like. rewrite A', B', D'. auto. Qed.
Lemma kcalm_bind {A B} (m : C A) (f : A -> C B) : kcalm m -> (forall a, kcalm (f a)) -> kcalm (bind m f).
Proof.
  intros Hm Hf h s r s' es H. unfold bind in H. destruct (m h s) as [[[x s1] e1]|] eqn:Em; [|discriminate].
  destruct (f x (h ++ e1) s1) as [[[y s2] e2]|] eqn:Ef; [|discriminate]. injection H as _ <- _.
  exact (like_trans _ _ _ (Hm _ _ _ _ _ Em) (Hf _ _ _ _ _ _ Ef)).
Qed.
Lemma kcalm_modify f : (forall s, like s (f s)) -> kcalm (@modify st ev f).
Proof. intros K h s r s' es H. inversion H. apply K. Qed.
Ltac kc := intros h s r s' es H; inversion H; apply like_refl.
Lemma kcalm_ret {A} (a : A) : kcalm (ret a). Proof. kc. Qed.
Lemma kcalm_fail {A} k : kcalm (@fail st ev A k). Proof. kc. Qed.
Lemma kcalm_gets {A} (f : st -> A) : kcalm (gets f). Proof. kc. Qed.
Lemma kcalm_emit e : kcalm (emit e). Proof. kc. Qed.
Lemma kcalm_query {A} (o : list ev -> A) k : kcalm (query o k). Proof. kc. Qed.
Ltac kcalm := repeat match goal with
  | |- kcalm (bind _ _) => apply kcalm_bind; [|intro]
  | |- kcalm (ret _) => apply kcalm_ret
  | |- kcalm (fail _) => apply kcalm_fail
  | |- kcalm (gets _) => apply kcalm_gets
  | |- kcalm (emit _) => apply kcalm_emit
  | |- kcalm (query _ _) => apply kcalm_query
  | |- kcalm (modify _) => apply kcalm_modify; intro; repeat split
  | |- kcalm (match ?x with _ => _ end) => destruct x
  | |- kcalm (let _ := _ in _) => cbv zeta
  | |- kcalm _ => progress unfold frame_get, frame_read, frame_put, frame_memcpy, arr_get, arr_set, arr_memcpy, get_stk, mod_stk, get_ses, get_adr, get_mac, mod_mac, deref_hal, mod_params, as_unit,
      get_current_dr, uwan_adr_is_enabled, mac_on_tx_complete, evt_rx1_timeout, evt_tx_done, uwan_timer_callback
  end.
Lemma kcalm_timeout E : kcalm (handle_downlink E ERR_RX_TIMEOUT).
Proof. unfold handle_downlink, view_of. cbn [is_ERR_NO]. kcalm. Qed.

Definition commC {A} (m : C A) : Prop := forall h s, calm s -> m h (aft s) = omap (m h s).
Lemma commC_of {A} (m : C A) : comm m -> commC m.
Proof. intros H h s _. apply H. Qed.
Lemma commC_bind {A B} (m : C A) (f : A -> C B) : commC m -> kcalm m -> (forall a, commC (f a)) -> commC (bind m f).
Proof.
  intros Hm Hk Hf h s Hc. unfold bind. rewrite (Hm h s Hc). destruct (m h s) as [[[a s1] e1]|] eqn:Em; [|reflexivity]. cbn [omap].
  rewrite (Hf a (h ++ e1) s1 (calm_like _ _ (Hk _ _ _ _ _ Em) Hc)). destruct (f a (h ++ e1) s1) as [[[b s2] e2]|]; reflexivity.
Qed.
Lemma aft_dr s : adr_is_enabled (s_adr s) = false \/ backs_off s = false -> cur_dr (aft s) = cur_dr s.
Proof.
  intros H. unfold cur_dr, aft, r_uplink_adr, r_uplink_dr. cbn. destruct H as [->| ->]; [reflexivity|].
  destruct (adr_is_enabled (s_adr s)); reflexivity.
Qed.
Lemma commC_offset {A} (f : C A) : comm f -> commC (
  off <- get_stk uw_rx1_offset ;;
  (if negb (off =? 0) then
     dr_id <- get_current_dr ;;
     let dr_id := if dr_id <? off then DR_0 else dr_id - off in
     d <- arr_get uw_dr_table dr_id ;;
     mod_params (set_sf_bw d)
   else ret tt) ;;; f).
Proof.
  intros Hf h s Hc. rewrite !bind_get_stk. change (uw_rx1_offset (s_stk (aft s))) with (uw_rx1_offset (s_stk s)).
  destruct (Z.eqb_spec (uw_rx1_offset (s_stk s)) 0) as [Q|Q]; cbn [negb].
  - apply comm_bind; [comm|intro; exact Hf].
  - destruct Hc as [Hc|Hc]; [contradiction|].
    assert (X : comm (d <- arr_get uw_dr_table (if cur_dr s <? uw_rx1_offset (s_stk s) then DR_0 else cur_dr s - uw_rx1_offset (s_stk s)) ;; mod_params (set_sf_bw d))) by comm.
    pose proof (comm_bind _ (fun _ => f) X (fun _ => Hf) h s) as Y. unfold bind at 1 in Y. unfold bind at 3 in Y. unfold bind at 1 4.
    erewrite (bind_ok0 get_current_dr); [|apply get_current_dr_ok]. cbv zeta. rewrite aft_dr by exact Hc.
    erewrite (bind_ok0 get_current_dr); [|apply get_current_dr_ok]. exact Y.
Qed.
Lemma commC_txdone E : commC (evt_tx_done E).
Proof.
  unfold evt_tx_done. do 6 (apply commC_bind; [apply commC_of; comm|kcalm|intros ?]).
  apply commC_offset. comm. apply comm_txc.
Qed.
Lemma commC_handler E m : Z.land m 2 = 0 -> commC (evt_handler E m).
Proof.
  intro Hm. unfold evt_handler. apply commC_bind; [apply commC_of; comm|kcalm|]. intros []; try (apply commC_of; apply comm_ret).
  - destruct (irq_has m IRQF_TX_DONE); [apply commC_txdone|apply commC_of; apply comm_ret].
  - unfold irq_has at 2, IRQF_RX_DONE. rewrite Hm. cbn [Z.eqb negb]. apply commC_of. destruct (irq_has m IRQF_RX_TIMEOUT); [apply comm_rx1|apply comm_ret].
  - unfold irq_has at 2, IRQF_RX_DONE. rewrite Hm. cbn [Z.eqb negb]. apply commC_of. destruct (irq_has m IRQF_RX_TIMEOUT); [|apply comm_ret].
    apply comm_bind; [comm|]. intro. apply comm_timeout.
Qed.
Lemma kcalm_handler E m : Z.land m 2 = 0 -> kcalm (evt_handler E m).
Proof.
  intro Hm. unfold evt_handler. apply kcalm_bind; [kcalm|]. intros []; try apply kcalm_ret.
  - kcalm.
  - unfold irq_has at 2, IRQF_RX_DONE. rewrite Hm. cbn [Z.eqb negb]. kcalm.
  - unfold irq_has at 2, IRQF_RX_DONE. rewrite Hm. cbn [Z.eqb negb]. kcalm. apply kcalm_timeout.
Qed.
Lemma calls_aft E ops : Forall hw ops -> no_rx_done ops -> commC (calls E ops).
Proof.
  intro H. induction H as [|o ops Ho Hops IH]; intro Hn; cbn [calls]; [apply commC_of, comm_ret|]. inversion Hn as [|? ? N1 N2]. subst.
  destruct o; try contradiction Ho; cbn [call]; unfold as_unit; apply commC_bind; try (intro; apply IH; exact N2).
  - apply commC_of. apply comm_bind; [apply comm_timer|intro; apply comm_ret].
  - kcalm.
  - apply commC_bind; [apply commC_handler; exact N1|apply kcalm_handler; exact N1|intro; apply commC_of, comm_ret].
  - apply kcalm_bind; [apply kcalm_handler; exact N1|intro; apply kcalm_ret].
Qed.
Lemma kcalm_calls E ops : Forall hw ops -> no_rx_done ops -> kcalm (calls E ops).
Proof.
  intro H. induction H as [|o ops Ho Hops IH]; intro Hn; cbn [calls]; [apply kcalm_ret|]. inversion Hn as [|? ? N1 N2]. subst.
  destruct o; try contradiction Ho; cbn [call]; unfold as_unit; apply kcalm_bind; try (intro; apply IH; exact N2); kcalm. apply kcalm_handler; exact N1.
Qed.

(** ** The interrupted call is the call followed by the interrupts at point 13 *)
Lemma bind_assoc {A B D} (m : C A) (f : A -> C B) (g : B -> C D) h s : bind (bind m f) g h s = bind m (fun a => bind (f a) g) h s.
Proof.
  unfold bind. destruct (m h s) as [[[a s1] e1]|]; [|reflexivity]. destruct (f a (h ++ e1) s1) as [[[b s2] e2]|]; [|reflexivity].
  rewrite app_assoc. destruct (g b ((h ++ e1) ++ e2) s2) as [[[d s3] e3]|]; [|reflexivity]. rewrite app_assoc. reflexivity.
Qed.
Section Then.
  Variables (E : env) (I : strikes).
  Definition and_then (e : err) : C err := (match e with ERR_NO => calls E (I 13%nat) | _ => ret tt end) ;;; ret e.
  (** [b]: the interrupts at point 13 may not commute with adr_handle_uplink *)
  Definition eqI (c : stack_state * Z * adrst * Z * Z) (b : Prop) (f g : C err) : Prop := forall h s, core s = c ->
    f h s = bind g and_then h s \/ b /\ exists s' es, g h s = Ok (ERR_NO, s', es).
  Lemma eq_bind {A} c b (m : C A) (f g : A -> C err) : stay m -> (forall a, eqI c b (f a) (g a)) -> eqI c b (bind m f) (bind m g).
  Proof.
    intros Hm Hf h s Hc. rewrite bind_assoc. unfold bind at 1 2 4. destruct (m h s) as [[[a s1] e1]|] eqn:Em; [|left; reflexivity].
    destruct (Hf a (h ++ e1) s1) as [Q|(Q & s2 & e2 & R)]; [rewrite (Hm _ _ _ _ _ Em); exact Hc| |].
    - left. rewrite Q. reflexivity.
    - right. split; [exact Q|]. rewrite R. eauto.
  Qed.
  Lemma eq_isr c b n f (g : C err) : Forall hw (I n) -> fst (fst (fst (fst c))) = IDLE -> eqI c b f g -> eqI c b (bind (isr E I n) (fun _ => f)) g.
  Proof.
    intros Hn Hi Hf h s Hc. erewrite bind_ok0; [exact (Hf h s Hc)|]. apply calls_idle; [exact Hn|]. rewrite <- Hc in Hi. exact Hi.
  Qed.
  Lemma eq_ret c b e : e <> ERR_NO -> eqI c b (ret e) (ret e).
  Proof. intros H h s Hc. left. unfold bind, ret, and_then. destruct e; reflexivity || congruence. Qed.
  Lemma eq_join_tail c b o : Forall hw (I 12%nat) -> no_tx_done (I 12%nat) ->
    eqI c b (mod_stk (set_uw_state TX) ;;; isr E I 12 ;;; radio_tx o ;;; isr E I 13 ;;; ret ERR_NO)
          (mod_stk (set_uw_state TX) ;;; radio_tx o ;;; ret ERR_NO).
  Proof.
    intros Hw Hn h s Hc. left. rewrite bind_assoc, !bind_mod_stk. erewrite bind_ok0; [|apply calls_tx; [exact Hw|exact Hn|reflexivity]].
    rewrite bind_assoc. apply LReent.bind_ext; [reflexivity|]. intros a s1 e1 _. symmetry. erewrite bind_ok0; [|reflexivity]. reflexivity.
  Qed.
  Lemma eq_send_tail c b o : Forall hw (I 12%nat) -> no_tx_done (I 12%nat) -> Forall hw (I 13%nat) -> no_rx_done (I 13%nat) ->
    (forall s, core s = c -> calm s \/ b) ->
    eqI c b (mod_stk (set_uw_state TX) ;;; isr E I 12 ;;; radio_tx o ;;; isr E I 13 ;;; adr_handle_uplink ;;; ret ERR_NO)
          (mod_stk (set_uw_state TX) ;;; radio_tx o ;;; adr_handle_uplink ;;; ret ERR_NO).
  Proof.
    intros Hw Hn Hw3 Hn3 Hcalm h s Hc. rewrite bind_assoc, !bind_mod_stk. erewrite bind_ok0; [|apply calls_tx; [exact Hw|exact Hn|reflexivity]].
    rewrite bind_assoc. set (s0 := on_stk (set_uw_state TX) s).
    assert (C0 : calm s0 \/ b) by exact (Hcalm s Hc). clearbody s0.
    unfold bind at 1 4 7. destruct (radio_tx o h s0) as [[[a s1] e1]|] eqn:Er; [|left; reflexivity].
    assert (K : kcalm (radio_tx o)) by (unfold radio_tx; kcalm). set (h1 := h ++ e1). clearbody h1.
    destruct C0 as [C0|C0].
    2: { right. split; [exact C0|]. erewrite bind_ok0; [|apply adr_uplink_ok]. cbn [ret]. eauto. }
    left. pose proof (calm_like _ _ (K _ _ _ _ _ Er) C0) as C1.
    assert (X : (isr E I 13 ;;; adr_handle_uplink ;;; ret ERR_NO) h1 s1 = bind (adr_handle_uplink ;;; ret ERR_NO) and_then h1 s1); [|rewrite X; reflexivity].
    rewrite bind_assoc. erewrite (bind_ok0 adr_handle_uplink); [|apply adr_uplink_ok]. fold (aft s1).
    erewrite (bind_ok0 (ret ERR_NO)); [|reflexivity]. unfold and_then.
    unfold bind at 1 3. rewrite (calls_aft E (I 13%nat) Hw3 Hn3 h1 s1 C1). unfold isr. destruct (calls E (I 13%nat) h1 s1) as [[[[] s2] e2]|]; [|reflexivity]. cbn [omap].
    erewrite bind_ok0; [|apply adr_uplink_ok]. reflexivity.
  Qed.
End Then.

Ltac eqI := repeat first
  [ apply eq_isr; [solve [auto]|assumption|]
  | apply eq_ret; discriminate
  | apply eq_bind; [solve [stays]|intro]
  | match goal with |- eqI _ _ _ _ (if ?b then _ else _) (if ?b then _ else _) => destruct b end
  | progress cbv zeta ].
Lemma join_isr E I h s : hw_only I -> no_tx_done (I 12%nat) -> uwan_join_isr E I h s = bind (uwan_join E) (and_then E I) h s.
Proof.
  intros Hw Hn. unfold uwan_join_isr, uwan_join. rewrite bind_assoc, !bind_get_stk.
  destruct (uw_state (s_stk s)) eqn:Hs; try reflexivity. pose (c := core s). assert (Hc : core s = c) by reflexivity.
  assert (Hi : fst (fst (fst (fst c))) = IDLE) by exact Hs. clearbody c.
  match goal with |- ?a h s = bind ?b _ h s => enough (X : eqI E I c False a b) by (destruct (X h s Hc) as [Q|[[] _]]; exact Q) end.
  eqI. apply eq_join_tail; auto.
Qed.
Lemma send_isr E I p d n b h s : hw_only I -> no_tx_done (I 12%nat) -> no_rx_done (I 13%nat) ->
  uwan_send_frame_isr E I p d n b h s = bind (uwan_send_frame E p d n b) (and_then E I) h s \/
  ~ calm s /\ exists s' es, uwan_send_frame E p d n b h s = Ok (ERR_NO, s', es).
Proof.
  intros Hw Hn Hr. unfold uwan_send_frame_isr, uwan_send_frame. rewrite bind_assoc, !bind_get_stk.
  destruct (uw_state (s_stk s)) eqn:Hs; try (left; reflexivity). pose (c := core s). assert (Hc : core s = c) by reflexivity.
  assert (Hi : fst (fst (fst (fst c))) = IDLE) by exact Hs.
  assert (Hq : forall s1, core s1 = c -> calm s1 \/ ~ calm s).
  { intros s1 Q. assert (W : calm s1 <-> calm s).
    { unfold c, core in Q. injection Q as _ Q1 Q2 Q3 _. unfold calm, backs_off. rewrite Q1, Q2, Q3. tauto. }
    rewrite W. unfold calm. destruct (Z.eq_dec (uw_rx1_offset (s_stk s)) 0); [tauto|]. destruct (adr_is_enabled (s_adr s)); [|tauto].
    destruct (backs_off s); [|tauto]. right. intros [?|[?|?]]; congruence. }
  clearbody c.
  match goal with |- ?a h s = bind ?b _ h s \/ _ => enough (X : eqI E I c (~ calm s) a b) by exact (X h s Hc) end.
  eqI. apply eq_send_tail; auto.
Qed.
