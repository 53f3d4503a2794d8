(** Prop_Chan.v -- channel selection and the channel table (C06 - C08). *)
From Verif Require Import LChan Demo.

(** ** C06 Uplinks use only enabled, legal channels *)
Theorem C06_enabled_legal_channel : forall E w o v es w',
  env_ok E -> reachable E w -> op_wf o -> step E w o = Some (v, es, w') -> tx_frames es <> [] ->
  exists i prm power f, 0 <= i < 16 /\ chan_on w i = true /\ 860000000 <= chan_freq w i <= 870000000 /\
    transmits es (chan_freq w i) prm power f.
Proof. exact C06_enabled_legal_channel_pf. Qed.
Print Assumptions C06_enabled_legal_channel.

(** only channel 9 is left: it is used whatever is drawn *)
Example C06_channel_case :
  case_of (demo [1000003] []) (abp 0 0 ++ [OSetChannel 9 869525000; OEnableChannel 0 false; OEnableChannel 1 false; OEnableChannel 2 false])
    (OSend 1 [1] false)
    (fun w v es w' => match freqs es with [869525000] => true | _ => false end).
Proof. show_case. Qed.

(** ** C07 Channel selection is complete and fair *)
Theorem C07_every_channel_selectable : forall E w i o,
  env_ok E -> reachable E w -> op_wf o -> idle w -> 0 <= i < 16 -> chan_on w i = true ->
  o = OJoin \/ (exists port payload confirm, o = OSend port payload confirm /\
                 len payload <= max_payload w /\ payload <> []) ->
  exists draw es w', 0 <= draw < 2147483648 /\ env_ok (with_rand draw E) /\
    step (with_rand draw E) w o = Some (VErr ERR_NO, es, w') /\ freqs es = [chan_freq w i].
Proof. exact C07_every_channel_selectable_pf. Qed.
Print Assumptions C07_every_channel_selectable.

(** for every environment, hence for every draw: selection terminates, and
    fails exactly when no channel is enabled *)
Theorem C07_selection_total : forall E w o,
  env_ok E -> reachable E w -> op_wf o -> idle w -> o = OJoin \/ (exists p d c, o = OSend p d c) ->
  exists e es w', step E w o = Some (VErr e, es, w') /\ (e = ERR_CHANNEL <-> no_channel w).
Proof.
  intros E w o HE Hr Hw Hi Ho. pose proof (reach_Inv E w HE Hr) as HI. unfold idle, stk in Hi.
  destruct (next_freq_cases E (w_hist w) w (w_st w) HI eq_refl) as [(i & I1 & I2 & I3 & I4)|(N1 & N2)].
  - assert (Hn : ~ no_channel w) by (intro Hn; rewrite (Hn i I1) in I2; discriminate).
    destruct Ho as [->|(p & d & c & ->)].
    + destruct (step_join_total E w HE HI) as (e & es & w' & Hs). exists e, es, w'. split; [exact Hs|].
      destruct (step_join E w _ _ _ HE HI Hs) as (e' & He & Hc). injection He as <-.
      inv_ok Hc; split; intro; try discriminate; try contradiction; lia.
    + destruct (step_send_total E w p d c HE HI Hw) as (e & es & w' & Hs). exists e, es, w'. split; [exact Hs|].
      destruct (step_send E w p d c _ _ _ HE HI Hw Hs) as (e' & He & Hc). injection He as <-.
      inv_ok Hc; split; intro; try discriminate; try contradiction; lia.
  - destruct Ho as [->|(p & d & c & ->)].
    + destruct (step_join_total E w HE HI) as (e & es & w' & Hs). exists e, es, w'. split; [exact Hs|].
      destruct (step_join E w _ _ _ HE HI Hs) as (e' & He & Hc). injection He as <-.
      inv_ok Hc; split; intro; try discriminate; try contradiction; auto.
    + destruct (step_send_total E w p d c HE HI Hw) as (e & es & w' & Hs). exists e, es, w'. split; [exact Hs|].
      destruct (step_send E w p d c _ _ _ HE HI Hw Hs) as (e' & He & Hc). injection He as <-.
      inv_ok Hc; split; intro; try discriminate; try contradiction; auto.
Qed.
Print Assumptions C07_selection_total.

(** channel 15 enabled, 3..14 undefined: draw 15 selects it, draw 5 too *)
Example C07_select_case :
  case_of (demo [15] []) (abp 0 0 ++ [OSetChannel 15 864000000]) (OSend 1 [1] false)
    (fun w v es w' => match freqs es with [864000000] => true | _ => false end).
Proof. show_case. Qed.
Example C07_wrap_case :
  case_of (demo [5] []) (abp 0 0 ++ [OSetChannel 15 864000000]) (OSend 1 [1] false)
    (fun w v es w' => match freqs es with [864000000] => true | _ => false end).
Proof. show_case. Qed.

(** ** C08 The channel table behaves as a finite map *)
Theorem C08_set_channel : forall E w i f,
  env_ok E -> reachable E w -> op_wf (OSetChannel i f) ->
  exists w', step E w (OSetChannel i f) = Some (VErr (fst (map_set i f (table w))), [], w') /\
    table w' = snd (map_set i f (table w)) /\ only_table w w'.
Proof.
  intros E w i f HE Hr Hw. pose proof (reach_Inv E w HE Hr) as HI.
  pose proof (simple_Inv _ _ _ _ HI Hw (eq_refl : simple (OSetChannel i f) (w_st w) = Some _)) as HI'.
  eexists. split; [|split].
  - erewrite (simple_step E w (OSetChannel i f)) by (exact HI || exact Hw || reflexivity).
    rewrite table_tbl by exact HI. rewrite <- tbl_r_set by (apply HI || apply Hw). reflexivity.
  - rewrite (table_tbl w) by exact HI. rewrite <- tbl_r_set by (apply HI || apply Hw).
    rewrite table_tbl by exact HI'. reflexivity.
  - repeat split; reflexivity.
Qed.
Print Assumptions C08_set_channel.

Theorem C08_enable_channel : forall E w i en,
  env_ok E -> reachable E w -> op_wf (OEnableChannel i en) ->
  exists w', step E w (OEnableChannel i en) = Some (VErr (fst (map_enable i en (table w))), [], w') /\
    table w' = snd (map_enable i en (table w)) /\ only_table w w'.
Proof.
  intros E w i en HE Hr Hw. pose proof (reach_Inv E w HE Hr) as HI.
  pose proof (simple_Inv _ _ _ _ HI Hw (eq_refl : simple (OEnableChannel i en) (w_st w) = Some _)) as HI'.
  eexists. split; [|split].
  - erewrite (simple_step E w (OEnableChannel i en)) by (exact HI || exact Hw || reflexivity).
    rewrite table_tbl by exact HI. rewrite <- tbl_r_enable by (apply HI || apply Hw). reflexivity.
  - rewrite (table_tbl w) by exact HI. rewrite <- tbl_r_enable by (apply HI || apply Hw).
    rewrite table_tbl by exact HI'. reflexivity.
  - repeat split; reflexivity.
Qed.
Print Assumptions C08_enable_channel.

(** the map is what is used and reported everywhere else *)
Theorem C08_table_entries : forall E w i,
  env_ok E -> reachable E w -> 0 <= i < 16 ->
  length (table w) = 16%nat /\ nth (Z.to_nat i) (table w) (0, false) = (chan_freq w i, chan_on w i) /\
  (chan_on w i = true -> 860000000 <= chan_freq w i <= 870000000).
Proof.
  intros E w i HE Hr Hi. pose proof (reach_Inv E w HE Hr) as HI.
  split; [apply table_length|]. split; [apply table_nth; exact Hi|].
  intro Ho. rewrite chan_on_cbit in Ho by assumption. rewrite chan_freq_cfreq.
  destruct (ck_on _ (iv_ch _ HI) i Hi Ho) as [_ Hn]. destruct (ck_freq _ (iv_ch _ HI) i Hi); [contradiction|assumption].
Qed.
Print Assumptions C08_table_entries.

(** initialisation: the region's channels, everything else disabled *)
Theorem C08_init_table : forall E w r v es w',
  env_ok E -> reachable E w -> step E w (OInit r) = Some (v, es, w') -> table w' = table_init r (table w).
Proof.
  intros E w r v es w' HE Hr H. pose proof (reach_Inv E w HE Hr) as HI.
  destruct (step_init E w r v es w' HI H) as (_ & Hs & _).
  assert (HI' : Inv (w_st w')) by (rewrite Hs; apply init_Inv; exact HI).
  rewrite !table_tbl by assumption. rewrite Hs. cbn [init_state s_ch]. unfold table_init.
  rewrite tbl_region by (apply clear_ch_ok; apply HI). rewrite tbl_clear by apply HI. reflexivity.
Qed.
Print Assumptions C08_init_table.

(** no other call of the application, and no timer, touches the table *)
Theorem C08_other_calls : forall E w o v es w',
  env_ok E -> reachable E w -> op_wf o -> step E w o = Some (v, es, w') ->
  match o with OSetChannel _ _ | OEnableChannel _ _ | OInit _ | OIrq _ => False | _ => True end ->
  table w' = table w.
Proof.
  intros E w o v es w' HE Hr Hw H Ho. pose proof (reach_Inv E w HE Hr) as HI.
  unfold table, chan_table. rewrite (step_ch_same E w o v es w' HE HI Hw H Ho). reflexivity.
Qed.
Print Assumptions C08_other_calls.

Example C08_set_case : case_of (demo [] []) (abp 0 0) (OSetChannel 7 867100000)
  (fun w v es w' => returns ERR_NO v && (chan_freq w' 7 =? 867100000) && chan_on w' 7 && negb (chan_on w 7)).
Proof. show_case. Qed.
Example C08_undefined_case : case_of (demo [] []) (abp 0 0) (OEnableChannel 7 true)
  (fun w v es w' => returns ERR_CHANNEL v && negb (chan_on w' 7)).
Proof. show_case. Qed.
Example C08_bad_index_case : case_of (demo [] []) (abp 0 0) (OSetChannel 16 868100000)
  (fun w v es w' => returns ERR_CHANNEL v).
Proof. show_case. Qed.
Example C08_bad_freq_case : case_of (demo [] []) (abp 0 0) (OSetChannel 3 870000001)
  (fun w v es w' => returns ERR_FREQUENCY v).
Proof. show_case. Qed.
Example C08_init_case : case_of (demo [] []) (abp 0 0 ++ [OSetChannel 7 867100000]) (OInit RU864)
  (fun w v es w' => (chan_freq w' 0 =? 868900000) && chan_on w' 1 && negb (chan_on w' 2) && negb (chan_on w' 7)).
Proof. show_case. Qed.
