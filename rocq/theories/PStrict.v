(** PStrict.v -- the strict reading of [byte << 24] and [1 << 31] only adds
    undefined behaviour: every call that returns under it returns the same
    under the two's-complement reading (proof infrastructure). *)
From Verif Require Export PApi.

Definition relax (E : env) : env :=
  Mk_env (e_aes E) (e_cmac E) (e_rand E) (e_radio_rand E) (e_pkt E) (e_battery E) (e_devtime E)
    (e_unixtime E) false.
Lemma relax_ok E : env_ok E -> env_ok (relax E).
Proof. intros []. constructor; cbn; assumption. Qed.
Lemma relax_ns E : e_strict_shl (relax E) = false.
Proof. reflexivity. Qed.

Definition refn {A} (m m' : C A) : Prop := forall h s, m h s = Undef UB_shift \/ m h s = m' h s.
Lemma refn_refl {A} (m : C A) : refn m m.
Proof. intros h s. right. reflexivity. Qed.
Lemma refn_bind {A B} (m m' : C A) (f f' : A -> C B) : refn m m' -> (forall a, refn (f a) (f' a)) ->
  refn (bind m f) (bind m' f').
Proof.
  intros H1 H2 h s. unfold bind. destruct (H1 h s) as [->| ->]; [left; reflexivity|].
  destruct (m' h s) as [[[a s1] e1]|k]; [|right; reflexivity].
  destruct (H2 a (h ++ e1) s1) as [->| ->]; [left; reflexivity|right; reflexivity].
Qed.
Lemma refn_shl E b : refn (shl24 E b) (shl24 (relax E) b).
Proof.
  intros h s. unfold shl24. cbn [relax e_strict_shl andb].
  destruct (e_strict_shl E && (128 <=? b)); [left; reflexivity|right; reflexivity].
Qed.
Lemma refn_cmd_bit E c : refn (cmd_bit E c) (cmd_bit (relax E) c).
Proof.
  intros h s. unfold cmd_bit. cbn [relax e_strict_shl andb].
  destruct (32 <=? c); [left; reflexivity|].
  destruct (e_strict_shl E && (c =? 31)); [left; reflexivity|right; reflexivity].
Qed.
Lemma refn_encrypt_loop E : forall fuel key a i base pos size,
  refn (encrypt_loop E fuel key a i base pos size) (encrypt_loop (relax E) fuel key a i base pos size).
Proof.
  induction fuel; intros; cbn [encrypt_loop]; destruct (0 <? size); try apply refn_refl.
  apply refn_bind; [apply refn_refl|intro]. cbv zeta. apply refn_bind; [apply refn_refl|intro]. apply IHfuel.
Qed.
Lemma refn_encrypt E base size key dir : refn (encrypt_payload E base size key dir) (encrypt_payload (relax E) base size key dir).
Proof.
  unfold encrypt_payload. do 4 (apply refn_bind; [apply refn_refl|intro; cbv zeta]).
  apply refn_bind; [apply refn_encrypt_loop|intro; apply refn_refl].
Qed.
Lemma refn_get_next E : refn (channels_get_next E) (channels_get_next (relax E)).
Proof.
  unfold channels_get_next. apply refn_bind; [apply refn_refl|intro].
  destruct (a =? 0); [apply refn_refl|]. apply refn_bind; [apply refn_refl|intro; apply refn_refl].
Qed.

Ltac refn1 :=
  match goal with
  | |- refn ?x ?x => apply refn_refl
  | |- refn (shl24 _ _) _ => apply refn_shl
  | |- refn (cmd_bit _ _) _ => apply refn_cmd_bit
  | |- refn (encrypt_payload _ _ _ _ _) _ => apply refn_encrypt
  | |- refn (channels_get_next _) _ => apply refn_get_next
  | |- refn (bind _ _) _ => apply refn_bind; [|intro; cbv zeta]
  | |- refn (if ?b then _ else _) _ => destruct b
  | |- refn (match ?x with _ => _ end) _ => destruct x
  | |- refn (let _ := _ in _) _ => cbv zeta
  end.
Lemma refn_device_time E pld : refn (device_time E pld) (device_time (relax E) pld).
Proof. unfold device_time. repeat refn1. Qed.

Definition refn_cmds (l l' : list ((list Z -> C bool) * Z * Z)) : Prop :=
  Forall2 (fun x y => snd x = snd y /\ snd (fst x) = snd (fst y) /\ forall pld, refn (fst (fst x) pld) (fst (fst y) pld)) l l'.
Lemma refn_dispatch l l' cid rest : refn_cmds l l' -> refn (mac_dispatch l cid rest) (mac_dispatch l' cid rest).
Proof.
  induction 1 as [|[[f c] n] [[f' c'] n'] l l' (H1 & H2 & H3) Hl IH]; [apply refn_refl|].
  cbn in H1, H2, H3. subst c' n'. cbn [mac_dispatch].
  destruct (cid =? c); [|exact IH]. destruct (n <=? len rest); [|apply refn_refl].
  apply refn_bind; [apply H3|intro; apply refn_refl].
Qed.
Lemma refn_commands E : refn_cmds (mac_commands E) (mac_commands (relax E)).
Proof.
  unfold refn_cmds, mac_commands.
  repeat (apply Forall2_cons; [cbn [fst snd]; split; [reflexivity|split; [reflexivity|]]|]).
  1-9: intro; apply refn_refl.
  - intro. apply refn_device_time.
  - apply Forall2_nil.
Qed.
Lemma refn_loop E : forall fuel rest, refn (mac_handle_loop E fuel rest) (mac_handle_loop (relax E) fuel rest).
Proof.
  induction fuel; intros [|cid rest]; cbn [mac_handle_loop]; try apply refn_refl.
  apply refn_bind; [apply refn_dispatch, refn_commands|].
  intros [st rest']. destruct (negb st); [apply refn_refl|apply IHfuel].
Qed.
Lemma refn_mac E buf : refn (mac_handle_commands E buf) (mac_handle_commands (relax E) buf).
Proof. apply refn_loop. Qed.

Lemma refn_join_msg E p : refn (handle_join_msg E p) (handle_join_msg (relax E) p).
Proof. unfold handle_join_msg. cbv zeta. repeat refn1; apply refn_refl. Qed.
Lemma refn_data_msg E p : refn (handle_data_msg E p) (handle_data_msg (relax E) p).
Proof.
  unfold handle_data_msg. cbv zeta.
  repeat first [refn1 | match goal with |- refn (mac_handle_commands _ _) _ => apply refn_mac end].
  apply refn_refl.
Qed.
Lemma refn_downlink E e : refn (handle_downlink E e) (handle_downlink (relax E) e).
Proof.
  unfold handle_downlink. cbv zeta.
  repeat first [refn1 | match goal with
    | |- refn (handle_join_msg _ _) _ => apply refn_join_msg
    | |- refn (handle_data_msg _ _) _ => apply refn_data_msg end].
  apply refn_refl.
Qed.
Lemma refn_evt E mask : refn (evt_handler E mask) (evt_handler (relax E) mask).
Proof.
  unfold evt_handler. repeat first [refn1 | match goal with
    | |- refn (handle_downlink _ _) _ => apply refn_downlink end]; apply refn_refl.
Qed.

Lemma refn_cs_command E c buf size cmd off aoff :
  refn (cs_command E c buf size cmd off aoff) (cs_command (relax E) c buf size cmd off aoff).
Proof. unfold cs_command. cbv zeta. repeat refn1; apply refn_refl. Qed.
Lemma refn_cs_loop E c buf size : forall fuel off aoff mask,
  refn (cs_loop E fuel c buf size off aoff mask) (cs_loop (relax E) fuel c buf size off aoff mask).
Proof.
  induction fuel; intros; cbn [cs_loop]; destruct (off <? size); try apply refn_refl.
  apply refn_bind; [apply refn_refl|intro; cbv zeta]. apply refn_bind; [apply refn_cmd_bit|intro; cbv zeta].
  destruct (negb _); [apply refn_refl|]. apply refn_bind; [apply refn_cs_command|]. intros [o' a']. apply IHfuel.
Qed.
Lemma refn_cs_handle E e buf size port :
  refn (uwan_clock_sync_handle_time_answ E e buf size port) (uwan_clock_sync_handle_time_answ (relax E) e buf size port).
Proof.
  unfold uwan_clock_sync_handle_time_answ. destruct (negb (is_ERR_NO e)); [apply refn_refl|].
  apply refn_bind; [apply refn_refl|intro]. apply refn_bind; [apply refn_refl|intro].
  destruct (_ && _); [|apply refn_refl]. unfold handle_answ.
  apply refn_bind; [apply refn_refl|]. intros [c|]; [|apply refn_refl].
  apply refn_bind; [apply refn_cs_loop|intro]. apply refn_refl.
Qed.

Lemma refn_send E port pld n c : refn (uwan_send_frame E port pld n c) (uwan_send_frame (relax E) port pld n c).
Proof. unfold uwan_send_frame. cbv zeta. repeat refn1; apply refn_refl. Qed.

Lemma refn_call E o : refn (call E o) (call (relax E) o).
Proof.
  destruct o; cbn [call]; try match goal with |- refn ?x ?x => apply refn_refl end;
    (apply refn_bind; [|intro; apply refn_refl]).
  - apply refn_refl.
  - unfold uwan_join. repeat refn1; apply refn_refl.
  - apply refn_send.
  - apply refn_evt.
  - apply refn_cs_handle.
  - unfold uwan_clock_sync_send_time_req. repeat first [refn1 | match goal with |- refn (uwan_send_frame _ _ _ _ _) _ => apply refn_send end]; apply refn_refl.
  - unfold uwan_clock_sync_send_answ. repeat first [refn1 | match goal with |- refn (uwan_send_frame _ _ _ _ _) _ => apply refn_send end]; apply refn_refl.
Qed.

(** ** Every call keeps the invariant *)
Definition call_ub (o : op) (k : ub) : Prop :=
  match o with OIrq _ => k = UB_null | OCsHandle _ _ _ _ => cs_ub k | _ => False end.

Lemma wp_as {A} (U : ub -> Prop) (m : C A) (f : A -> val) h s (P : st -> Prop) :
  wpu U m h s (fun _ s' _ => P s') -> wpu U (a <- m ;; ret (f a)) h s (fun _ s' _ => P s').
Proof. intro H. apply wp_bind. eapply wp_conseq; [exact H|]. intros a s' es Hp. exact Hp. Qed.

Lemma send_wp E port pld c h s : env_ok E -> Inv s -> is_byte port -> bytes_ok pld ->
  wpu noub (uwan_send_frame E port pld (len pld) c) h s (fun _ s' _ => Inv s').
Proof.
  intros HE HI Hp Hb. pose proof (send_cases_ok E port pld c h s HE HI Hp Hb) as H. unfold wpu.
  destruct H; try exact HI. apply send_Inv; assumption.
Qed.

Lemma call_wp E o h s : env_ok E -> e_strict_shl E = false -> Inv s -> op_wf o ->
  wpu (call_ub o) (call E o) h s (fun _ s' _ => Inv s').
Proof.
  intros HE Hns HI Hw. destruct (simple o s) as [[v s']|] eqn:Es.
  { eapply wp_ok; [apply (simple_ok E o v s' h s HI Hw Es)|]. eapply simple_Inv; eassumption. }
  destruct o; cbn [simple] in Es; try discriminate; cbn [call]; cbn [op_wf] in Hw.
  - unfold as_unit. eapply (wp_as _ _ (fun _ => VUnit)), wp_ok; [apply init_ok; exact HI|apply init_Inv; exact HI].
  - apply (wp_as _ _ VErr). unfold wpu. pose proof (join_cases_ok E h s HE HI) as H.
    destruct H; try exact HI. apply join_Inv; try assumption. apply join_nonce_range.
  - destruct Hw as (W1 & W2 & W3). apply (wp_as _ _ VErr). apply wp_noub. apply send_wp; assumption.
  - apply (wp_as _ _ (fun _ => VUnit)). eapply wp_ok; [apply timer_ok; exact HI|exact HI].
  - apply (wp_as _ _ (fun _ => VUnit)). pose proof (irq_ok E mask h s HE Hns HI) as H. unfold wpu.
    destruct (evt_handler E mask h s) as [[[[] s'] es]|k] eqn:Eq.
    + eapply irq_Inv; eassumption.
    + inversion H; reflexivity.
  - apply (wp_as _ _ (fun _ => VUnit)). eapply wp_conseq; [apply wp_cs_handle; assumption|].
    intros a s' es H. apply H.
  - apply (wp_as _ _ VErr). destruct (cs_callbacks (s_cs s)) as [c|] eqn:Ec.
    + unfold wpu. rewrite cs_send_req_ok by (try assumption; congruence).
      destruct (cs_req_payload_ok E ans_required h s HE HI) as [P1 P2].
      pose proof (send_wp E CS_PORT (cs_req_payload E ans_required h s) false (h ++ [KUnixtime (e_unixtime E h)]) (cs_req_st s)
        HE (cs_req_Inv s HI) ltac:(cbv; intuition discriminate) P1) as H.
      unfold wpu in H. destruct (uwan_send_frame _ _ _ _ _ _ _) as [[[r s'] es]|k]; [exact H|destruct H].
    + eapply wp_ok; [|exact HI]. unfold uwan_clock_sync_send_time_req. msteps. rewrite Ec. reflexivity.
  - apply (wp_as _ _ VErr). destruct (ans_pending (s_cs s)) eqn:Ep.
    + unfold wpu. rewrite cs_send_ans_ok by assumption. destruct (cs_answer_ok s HI) as [P1 P2].
      apply wp_noub. apply send_wp; try assumption. cbv; intuition discriminate.
    + eapply wp_ok; [|exact HI]. unfold uwan_clock_sync_send_answ. msteps. rewrite Ep. reflexivity.
Qed.

(** ** Executions *)
Lemma step_relax E w o r : step E w o = Some r -> step (relax E) w o = Some r.
Proof.
  unfold step. destruct (refn_call E o (w_hist w) (w_st w)) as [->| ->]; [discriminate|auto].
Qed.
Lemma exec_relax E w ops tr w' : exec E w ops tr w' -> exec (relax E) w ops tr w'.
Proof.
  induction 1 as [|w o ops v es w1 tr w2 Hs He IH]; [apply exec_nil|].
  eapply exec_cons; [apply step_relax; exact Hs|exact IH].
Qed.
Lemma reachable_relax E w : reachable E w -> reachable (relax E) w.
Proof. intros (ops & tr & H1 & H2). exists ops, tr. split; [exact H1|apply exec_relax; exact H2]. Qed.

Lemma step_Inv E w o v es w' : env_ok E -> Inv (w_st w) -> op_wf o -> step E w o = Some (v, es, w') -> Inv (w_st w').
Proof.
  intros HE HI Hw Hs. apply step_relax in Hs. unfold step in Hs.
  pose proof (call_wp (relax E) o (w_hist w) (w_st w) (relax_ok E HE) eq_refl HI Hw) as H. unfold wpu in H.
  destruct (call (relax E) o (w_hist w) (w_st w)) as [[[v' s'] es']|k]; [|discriminate].
  injection Hs as <- <- <-. exact H.
Qed.
Lemma exec_Inv E w ops tr w' : env_ok E -> Inv (w_st w) -> Forall op_wf ops -> exec E w ops tr w' -> Inv (w_st w').
Proof.
  intros HE HI Hf H. induction H as [|w o ops v es w1 tr w2 Hs He IH]; [exact HI|].
  inversion Hf; subst. apply IH; [|assumption]. eapply step_Inv; eassumption.
Qed.
Lemma reach_Inv E w : env_ok E -> reachable E w -> Inv (w_st w).
Proof.
  intros HE (ops & tr & Hf & H). eapply exec_Inv; try eassumption. apply power_on_Inv.
Qed.
Lemma step_reach E w o v es w' : reachable E w -> op_wf o -> step E w o = Some (v, es, w') -> reachable E w'.
Proof.
  intros (ops & tr & Hf & H) Hw Hs. exists (ops ++ [o]), (tr ++ [(o, v, es)]). split.
  - apply Forall_app. split; [exact Hf|]. constructor; [exact Hw|constructor].
  - induction H; cbn [app].
    + eapply exec_cons; [exact Hs|apply exec_nil].
    + inversion Hf; subst. eapply exec_cons; [eassumption|auto].
Qed.
