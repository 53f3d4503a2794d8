(** Prop_Net2.v -- downlinks over a network that loses and repeats frames (C80) *)
From Verif Require Import SpecNet LDown3 LWin LCfg Demo Prop_Join Prop_Down Prop_Uplink.

Lemma step_reads E w o v es w' : env_ok E -> Inv (w_st w) -> op_wf o -> step E w o = Some (v, es, w') ->
  (exists m, o = OIrq m /\ receives w m /\ reads es = [rx_data (received E w)]) \/ (reads es = [] /\ forall m, o = OIrq m -> ~ receives w m).
Proof.
  intros HE HI Hw H.
  destruct (step_win E w o v es w' HE HI Hw H) as [r A L|fr pw f A _ _ _ L|m' ts A _ P _ _ L|m' A _ P T0 _ L|m' pre rd e t vw A _ P _ N1 N2 Ee L D _|t A _ _ _ L|L S N1 N2 N3 N4].
  - right. rewrite <- LCfg.reads_link, L. split; [reflexivity|intros m Q; congruence].
  - right. rewrite <- LCfg.reads_link, L. split; [reflexivity|]. intros m Q. subst o. destruct A; discriminate.
  - right. rewrite <- LCfg.reads_link, L. split; [|intros m Q; subst o; intros (S1 & _); revert P; unfold st_phase, ph; destruct S1 as [-> | ->]; discriminate].
    unfold reads. rewrite flat_map_app. cbn [flat_map app]. clear. induction ts as [|x ts IH]; [reflexivity|exact IH].
  - right. subst es. split; [reflexivity|]. intros m Q. assert (m = m') by congruence. subst m'. intros (_ & T & _). congruence.
  - destruct D as [(-> & D)|(-> & D & _)].
    + left. exists m'. repeat split; try assumption; try apply D. subst o. exact (irq_reads E w m' v es w' HE HI Hw H D).
    + right. split; [|intros m Q; assert (m = m') by congruence; subst m'; exact D]. subst es. unfold reads. rewrite flat_map_app. cbn [flat_map app]. rewrite app_nil_r.
      change (reads pre = []). rewrite <- LCfg.reads_link, L. unfold rx_pre. destruct (uw_state (stk w)); reflexivity.
  - right. subst es. split; [reflexivity|intros m Q; congruence].
  - right. rewrite <- LCfg.reads_link, L. split; [reflexivity|]. intros m Q (S1 & T0 & T1 & _). destruct (N2 m Q) as (_ & X). unfold st_phase, ph in X. destruct S1 as [S1|S1]; rewrite S1 in X; intuition (try discriminate; try congruence).
Qed.
Definition handed_by (es : list ev) : list (bool * option (Z * list Z)) := deliveries [((OIsJoined, VUnit, es) : entry)].
Lemma deliveries_cons t tr : deliveries (t :: tr) = handed_by (snd t) ++ deliveries tr.
Proof. unfold handed_by, deliveries. cbn [flat_map snd]. rewrite app_nil_r. reflexivity. Qed.
Lemma step_silent E w o v es w' : env_ok E -> reachable E w -> op_wf o -> step E w o = Some (v, es, w') -> (forall m, o = OIrq m -> ~ receives w m) -> handed_by es = [].
Proof.
  intros HE Hr Hw H N. pose proof (reach_Inv E w HE Hr) as HI. unfold handed_by, deliveries. cbn [flat_map snd].
  assert (I : (exists m, o = OIrq m) \/ forall m, o <> OIrq m) by (destruct o; first [left; eexists; reflexivity|right; discriminate]).
  destruct I as [(m & ->)|I]; [|rewrite (step_nocb E w o v es w' HE HI Hw H I); reflexivity].
  destruct (C27_no_frame_inert E w m v es w' HE Hr Hw (N m eq_refl) H) as (_ & _ & _ & _ & _ & [->|(e & Ne & ->)]); [reflexivity|]. cbn [flat_map]. destruct e; try reflexivity. congruence.
Qed.
(** a repeated frame *)
Lemma step_repeat E w m v es w' r msg c : env_ok E -> reachable E w -> receives w m -> joining w = false -> step E w (OIrq m) = Some (v, es, w') ->
  rx_data (received E w) = server_frame E r msg c -> dev_addr r = dev_addr (ses w) -> len (dm_fopts (msg c)) < 16 -> f_cnt_down (ses w) = c -> 0 < c -> handed_by es = [] /\ f_cnt_down (ses w') = c.
Proof.
  intros HE Hr R J H Hd Ha Hf Hc C0. pose proof (reach_Inv E w HE Hr) as HI.
  assert (Hb : 0 <= dev_addr r < 4294967296) by (rewrite Ha; apply (sk_addr _ (iv_ses _ HI))).
  destruct (downlink_fields (e_aes E) (e_cmac E) (nwk_s_key r) (app_s_key r) (dev_addr r) c (dm_confirmed (msg c)) (dm_hi (msg c)) (dm_fopts (msg c)) (dm_frm (msg c)) (ok_cmac_len E HE) Hb Hf) as (_ & _ & _ & _ & F & _).
  assert (N : new_cnt (f_cnt_down (ses w)) (fr_cnt16 (rx_data (received E w))) = None).
  { rewrite Hd. unfold server_frame. rewrite F. apply new_cnt_none; [apply Z.mod_pos_bound; lia|]. rewrite Hc. split; [lia|reflexivity]. }
  destruct (data_outcome E w m v es w' HE HI H R J) as [e t vw Ne _ _ Cb _ K|e c' t vw _ _ _ _ X]; [|congruence].
  split; [unfold handed_by, deliveries; cbn [flat_map snd]; rewrite Cb; cbn [flat_map]; destruct e; try reflexivity; congruence|].
  destruct K as (_ & _ & _ & K & _). rewrite K. exact Hc.
Qed.
Definition what (d : dmsg) : bool * option (Z * list Z) := (dm_confirmed d, dm_frm d).
(** a new frame *)
Lemma step_fresh E w m v es w' r msg c : env_ok E -> reachable E w -> op_wf (OIrq m) -> receives w m -> joining w = false -> step E w (OIrq m) = Some (v, es, w') ->
  rx_data (received E w) = server_frame E r msg c -> dev_addr r = dev_addr (ses w) -> nwk_s_key r = nwk_s_key (ses w) -> app_s_key r = app_s_key (ses w) ->
  len (dm_fopts (msg c)) < 16 -> next_counter (f_cnt_down (ses w)) c -> handed_by es = [what (msg c)] /\ f_cnt_down (ses w') = c.
Proof.
  intros HE Hr Hw R J H Hd A1 A2 A3 Hf Hn. unfold server_frame in Hd. rewrite A1, A2, A3 in Hd.
  destruct (C11_genuine_delivered E w m c (dm_confirmed (msg c)) (dm_hi (msg c)) (dm_fopts (msg c)) (dm_frm (msg c)) HE Hr Hw R J Hn Hf Hd) as [_ X].
  destruct (X v es w' H) as (Cb & Cc & _). split; [|exact Cc]. unfold handed_by, deliveries. cbn [flat_map snd]. rewrite Cb. unfold what. cbn [flat_map app].
  destruct (dm_frm (msg c)) as [[p d]|]; destruct (dm_confirmed (msg c)); reflexivity.
Qed.

(** ** C80 Downlinks over an unreliable network *)
Lemma downlinks_from E msg : env_ok E -> (forall c, len (dm_fopts (msg c)) < 16) -> forall tr w ops w' r top cs,
  reachable E w -> Forall op_wf ops -> exec E w ops tr w' -> joining w = false ->
  Forall (fun t => ~ new_session_entry t /\ join_call t = false) tr ->
  dev_addr r = dev_addr (ses w) -> nwk_s_key r = nwk_s_key (ses w) -> app_s_key r = app_s_key (ses w) ->
  f_cnt_down (ses w) = Z.max top 0 -> -1 <= top -> heard_frames tr = map (server_frame E r msg) cs -> heard top cs ->
  deliveries tr = map (fun c => what (msg c)) (fresh top cs).
Proof.
  intros HE Hfo tr. induction tr as [|t tr IH]; intros w ops w' r top cs Hr Hw H J Hn A1 A2 A3 Hc Ht Hh He.
  { destruct cs; [reflexivity|discriminate Hh]. }
  inversion H as [|? o ops' v es w1 ? ? Hs Hx]; subst. clear H. inversion Hw as [|? ? Ho Hw']; subst. inversion Hn as [|? ? [Hn1 Hj1] Hn']; subst.
  pose proof (reach_Inv E w HE Hr) as HI. pose proof (step_reach E w o v es w1 Hr Ho Hs) as Hr1.
  destruct (step_ses E w o v es w1 HE HI Ho Hs Hn1) as [[S1 S2 S3] _].
  assert (J1 : joining w1 = false).
  { destruct (joining w1) eqn:Q; [|reflexivity]. destruct (step_joining E w o v es w1 HE HI Ho Hs Q) as [X|[X Y]]; [congruence|]. subst. discriminate Hj1. }
  rewrite deliveries_cons. cbn [snd]. unfold heard_frames in Hh. cbn [flat_map snd] in Hh.
  destruct (step_reads E w o v es w1 HE HI Ho Hs) as [(m & -> & R & Rd)|[Rd N]]; rewrite Rd in Hh.
  - destruct cs as [|c cs]; [discriminate Hh|]. cbn [map app] in Hh. injection Hh as Hd Hh. cbn [heard] in He. destruct He as (He1 & He2 & He3). cbn [fresh].
    destruct (Z.ltb_spec top c) as [L|L].
    + destruct (step_fresh E w m v es w1 r msg c HE Hr Ho R J Hs Hd A1 A2 A3 (Hfo c)) as [D Cc].
      { rewrite Hc. destruct (Z.ltb_spec 0 top); [right; lia|left; lia]. }
      rewrite D. cbn [map app]. f_equal. rewrite Z.max_r in He3 by lia. apply (IH w1 ops' w' r c cs); try assumption; try congruence; lia.
    + destruct (Z.ltb_spec 0 top) as [T|T]; [|lia]. assert (c = top) by lia. subst c.
      destruct (step_repeat E w m v es w1 r msg top HE Hr R J Hs Hd A1 (Hfo top)) as [D Cc]; [lia..|]. rewrite D. cbn [app]. rewrite Z.max_l in He3 by lia.
      apply (IH w1 ops' w' r top cs); try assumption; try congruence; lia.
  - rewrite (step_silent E w o v es w1 HE Hr Ho Hs N). cbn [app] in *. apply (IH w1 ops' w' r top cs); try assumption; try congruence.
    destruct (step_link E w o v es w1 HE HI Ho Hs Hn1) as [m -> R _ _|f _ _ X _|_ X _]; [destruct (N m eq_refl R)|lia..].
Qed.
Theorem C80_downlinks_partial E w ops tr w' msg cs :
  env_ok E -> reachable E w -> Forall op_wf ops -> exec E w ops tr w' ->
  joining w = false -> Forall (fun t => ~ new_session_entry t /\ join_call t = false) tr -> (forall c, len (dm_fopts (msg c)) < 16) ->
  heard_frames tr = map (server_frame E (ses w) msg) cs -> heard (top_of w) cs ->
  deliveries tr = map (fun c => (dm_confirmed (msg c), dm_frm (msg c))) (fresh (top_of w) cs).
Proof.
  intros HE Hr Hw H J Hn Hf Hh He. pose proof (reach_Inv E w HE Hr) as HI. assert (B : 0 <= f_cnt_down (ses w) < 4294967296) by apply (iv_ses _ HI).
  apply (downlinks_from E msg HE Hf tr w ops w' (ses w) (top_of w) cs); try assumption; try reflexivity; unfold top_of; destruct (Z.eqb_spec (f_cnt_down (ses w)) 0); lia.
Qed.
Print Assumptions C80_downlinks_partial.
(** Four frames sent with the counters 5, 6, 7 and 9 (8 is lost, 7 is repeated) *)
Definition net_msg (c : Z) : dmsg := Mk_dmsg (Z.odd c) 0 (if c =? 6 then [6] else []) (if c =? 9 then None else Some (c, repeat c 20)).
Definition net_dl (c : Z) : list Z * Z := (dl c (Z.odd c) 0 (if c =? 6 then [6] else []) (if c =? 9 then None else Some (c, repeat c 20)), 9).
Definition hear : list op := [OSend 1 [7] false; OIrq 4; OTimer TIMER_RX1; OIrq 2].
Example C80_case : let cs := [5; 6; 7; 7; 9] in let E := demo [] (map net_dl cs) in
  run_of E (abp 0 4) (concat (repeat hear 5))
    (fun w tr w' => negb (joining w) && forallb (fun t => negb (join_call t)) tr && (top_of w =? 4) && (length (heard_frames tr) =? 5)%nat &&
       forallb (fun x => list_eqb (fst x) (snd x)) (combine (heard_frames tr) (map (server_frame E (ses w) net_msg) cs)) && (length (deliveries tr) =? 4)%nat).
Proof. show_run. Qed.
Example C80_case_heard : heard 4 [5; 6; 7; 7; 9] /\ fresh 4 [5; 6; 7; 7; 9] = [5; 6; 7; 9].
Proof. split; [|reflexivity]. cbn. repeat split; try discriminate. Qed.

(** Missing: frames that arrive late. The device takes an old counter for one after the
    next rollover (src/stack.c:376-380) before it looks at the MIC, and then rejects the
    frames that follow. Here 6, 5 and 7 arrive in this order and 7 is lost. *)
Theorem C80_late_refuted : ~ (forall E w ops tr w' msg cs,
  env_ok E -> reachable E w -> Forall op_wf ops -> exec E w ops tr w' ->
  joining w = false -> Forall (fun t => ~ new_session_entry t /\ join_call t = false) tr -> (forall c, len (dm_fopts (msg c)) < 16) ->
  heard_frames tr = map (server_frame E (ses w) msg) cs -> heard_late (top_of w) cs ->
  deliveries tr = map (fun c => (dm_confirmed (msg c), dm_frm (msg c))) (fresh (top_of w) cs)).
Proof.
  intro C. set (cs := [6; 5; 7]). set (E := demo [] (map net_dl cs)). set (ops := concat (repeat hear 3)).
  destruct (run_intro E (abp 0 4) ops (fun w tr w' => negb (joining w) && forallb (fun t => negb (join_call t)) tr && (top_of w =? 4) && forallb nonewb tr &&
     (if list_eq_dec (list_eq_dec Z.eq_dec) (heard_frames tr) (map (server_frame E (ses w) net_msg) cs) then true else false) && (length (deliveries tr) =? 1)%nat))
    as (tr & w' & A & B & Hw & D & F); [apply demo_ok|vm_compute; reflexivity|].
  remember (after E (abp 0 4)) as w eqn:Ew. clear Ew. apply andb_prop in F as [F F1]. apply andb_prop in F as [F F2]. apply andb_prop in F as [F F3]. apply andb_prop in F as [F F4]. apply andb_prop in F as [F F5].
  apply Z.eqb_eq in F4. apply nonewb_ok in F3. rewrite forallb_forall in F5.
  assert (X : deliveries tr = map (fun c => (dm_confirmed (net_msg c), dm_frm (net_msg c))) (fresh (top_of w) cs)).
  { apply (C E w ops tr w' net_msg cs A B Hw D).
    - destruct (joining w); [discriminate|reflexivity].
    - apply Forall_forall. intros t It. rewrite Forall_forall in F3. split; [exact (F3 t It)|]. specialize (F5 t It). destruct (join_call t); [discriminate|reflexivity].
    - intro c. unfold net_msg. cbn [dm_fopts]. destruct (c =? 6); reflexivity.
    - destruct (list_eq_dec _ (heard_frames tr) _) as [Q|]; [exact Q|discriminate].
    - rewrite F4. cbn. repeat split; discriminate. }
  rewrite X, F4 in F1. discriminate F1.
Qed.
Print Assumptions C80_late_refuted.
