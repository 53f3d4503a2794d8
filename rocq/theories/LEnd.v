(** LEnd.v -- frames on the air and frames of the stack *)
From Verif Require Export SpecEnd LSys LLink.
From Verif Require Import LUp4 LClock Prop_Uplink Prop_Net PUp.

Lemma f2_length {A B} (R : A -> B -> Prop) a b : Forall2 R a b -> length a = length b.
Proof. induction 1; cbn; congruence. Qed.
Definition sends (ds : list doing) : list (list Z) := flat_map (fun d => match d with Send _ _ _ b => [b] | _ => [] end) ds.
Lemma sends_doings es : forall f p x, sends (doings f p x es) = tx_frames es.
Proof. induction es as [|e es IH]; intros f p x; [reflexivity|]. destruct e; cbn [doings tx_frames]; unfold sends in *; cbn [flat_map app]; rewrite ?IH; reflexivity. Qed.
Lemma acts_sends k can ds acts : Forall2 (on_air k can) ds acts -> map snd (aired acts) = sends ds /\ Forall (audible k) (aired acts).
Proof.
  induction 1 as [|d a ds acts O F [I1 I2]]; [split; [reflexivity|constructor]|]. unfold aired, sends in *. cbn [flat_map].
  destruct d as [f p x b|f p n y t|], a as [m b'|m how y' n']; cbn [on_air] in O; try contradiction; cbn [app map]; [|split; assumption|split; assumption].
  destruct O as (-> & Lf & C & (dr & _ & Lw) & _). split; [cbn [snd]; f_equal; exact I1|]. constructor; [|exact I2]. exists f, dr. auto.
Qed.
Lemma doings_phases a b : exists u : cur, doings 0 no_params 0 (a ++ b) = doings 0 no_params 0 a ++ doings (u_freq u) (u_par u) (u_power u) b.
Proof. eexists. exact (doings_app a b cur0). Qed.
Lemma tx_frames_flat tr : tx_frames (all_evs tr) = flat_map (fun t => tx_frames (snd t)) tr.
Proof.
  assert (A : forall a b, tx_frames (a ++ b) = tx_frames a ++ tx_frames b) by (induction a as [|e a IH]; intro b; [reflexivity|]; destruct e; cbn; rewrite ?IH; reflexivity).
  unfold all_evs. induction tr as [|t tr IH]; [reflexivity|]. cbn [flat_map]. rewrite A, IH. destruct t as [[o v] es]. reflexivity.
Qed.
Lemma carries_data E r c m f : carries E r c m f -> data_up f = true.
Proof.
  intros [(adr & req & ack & fo & port & d & _ & _ & _ & ->)]. unfold data_up, uplink_frame, sealed, data_body. destruct (fst m); reflexivity.
Qed.
Lemma frames_data E : env_ok E -> forall tr ops0 tr0 w ops w', Forall op_wf ops0 -> exec E world0 ops0 tr0 w -> Forall op_wf ops -> exec E w ops tr w' -> Forall no_port_0 tr ->
  filter data_up (tx_frames (all_evs tr)) = data_frames tr /\ length (said E tr0 tr) = length (data_frames tr).
Proof.
  intros HE tr. induction tr as [|t tr IH]; intros ops0 tr0 w ops w' Hw0 H0 Hw H Hp; [split; reflexivity|].
  inversion H as [|? o ops' v es w1 ? ? Hs He]; subst. clear H. inversion Hw as [|? ? Ho Hw']; subst. inversion Hp as [|? ? Hp1 Hp']; subst.
  assert (Hr : reachable E w) by (exists ops0, tr0; auto). pose proof (reach_Inv E w HE Hr) as HI.
  pose proof (says_sends E ops0 tr0 w o v es w1 HE Hw0 H0 Ho Hs Hp1) as F.
  destruct (IH (ops0 ++ [o]) (tr0 ++ [(o, v, es)]) w1 ops' w') as [I1 I2]; try assumption.
  { apply Forall_app. split; [exact Hw0|constructor; [exact Ho|constructor]]. }
  { eapply exec_app; [exact H0|]. econstructor; [exact Hs|constructor]. }
  unfold entry in *. rewrite data_frames_cons. cbn [said]. split; [|rewrite !app_length; f_equal; [exact (f2_length _ _ _ F)|exact I2]].
  rewrite tx_frames_flat in *. cbn [flat_map snd]. rewrite filter_app, I1. f_equal. clear - F HE HI Ho Hs Hr.
  assert (G : Forall (fun f => data_up f = true) (data_frames [(o, v, es)])) by (induction F as [|x f xs fs C F IH]; constructor; [exact (carries_data _ _ _ _ _ C)|exact IH]).
  assert (K : forall l, Forall (fun f => data_up f = true) l -> filter data_up l = l) by (induction 1 as [|f l B F' IHl]; [reflexivity|cbn; rewrite B, IHl; reflexivity]).
  unfold data_frames in *. cbn [flat_map fst snd] in *. rewrite app_nil_r in *. destruct o; try (apply K, G).
  destruct (step_tx E w _ v es w1 HE HI Ho Hs) as [p d c h1 s1 S|A ->|A _]; [destruct S; discriminate| |rewrite A; reflexivity].
  destruct (C25_join_request E w es w1 HE Hr Hs) as (c & r & _ & _ & ->). reflexivity.
Qed.
(** two phases of a run *)
Lemma f2_split {A B} (R : A -> B -> Prop) a a' b b' : Forall2 R a b -> Forall2 R (a ++ a') (b ++ b') -> Forall2 R a' b'.
Proof. induction 1 as [|x y a b X F IH]; intro G; [exact G|]. inversion G; subst. auto. Qed.
Lemma f2_split' {A B} (R R' : A -> B -> Prop) a a' b b' : Forall2 R a b -> Forall2 R' (a ++ a') (b ++ b') -> Forall2 R' a' b'.
Proof. induction 1 as [|x y a b X F IH]; intro G; [exact G|]. inversion G; subst. auto. Qed.
Lemma drives_phases tr0 tr dtr0 dtr1 : drives (all_evs tr0) dtr0 -> drives (all_evs (tr0 ++ tr)) (dtr0 ++ dtr1) ->
  exists hal d l d0, dtr0 = (PInit hal d, RvBool true, l) :: d0 /\ rop_wf (PInit hal d) /\ Forall2 served (filter asks_radio (all_evs tr0)) (filter by_stack d0) /\
    Forall2 served (filter asks_radio (all_evs (tr0 ++ tr))) (filter by_stack (d0 ++ dtr1)) /\ Forall2 served (filter asks_radio (all_evs tr)) (filter by_stack dtr1).
Proof.
  intros (hal & d & l & d0 & -> & W & F) (hal' & d' & l' & d0' & Q & _ & F'). cbn in Q. injection Q as <- <- <- <-. exists hal, d, l, d0.
  split; [reflexivity|]. split; [exact W|]. split; [exact F|]. split; [exact F'|]. unfold all_evs in F'. rewrite flat_map_app, !filter_app in F'. exact (f2_split _ _ _ _ _ F F').
Qed.
Lemma aired_phase k can0 can tr0 tr acts0 acts : Forall2 (on_air k can0) (doings 0 no_params 0 (filter asks_radio (all_evs tr0))) acts0 ->
  Forall2 (on_air k can) (doings 0 no_params 0 (filter asks_radio (all_evs (tr0 ++ tr)))) (acts0 ++ acts) ->
  map snd (aired acts) = tx_frames (all_evs tr) /\ Forall (audible k) (aired acts).
Proof.
  rewrite !doings_filter. intros F0 F. unfold all_evs in F. rewrite flat_map_app in F. fold (all_evs tr0) (all_evs tr) in F. destruct (doings_phases (all_evs tr0) (all_evs tr)) as (u & D). rewrite D in F.
  apply (f2_split' _ _ _ _ _ _ F0) in F. destruct (acts_sends _ _ _ _ F) as [A B]. rewrite sends_doings in A. auto.
Qed.
(** what the server makes of the data frames of a phase *)
Lemma phase_server E ops0 tr0 w ops tr w' is acts k : env_ok E -> Forall op_wf ops0 -> exec E world0 ops0 tr0 w -> Forall op_wf ops -> exec E w ops tr w' ->
  Forall (fun t => ~ new_session_entry t) tr -> Forall no_port_0 tr ->
  let c := f_cnt_up (ses w) in let n := Z.of_nat (length (said E tr0 tr)) in
  c + n <= 4294967296 -> Forall (fun i => 0 <= i < n) is -> passable (-1) is ->
  map snd (aired acts) = tx_frames (all_evs tr) /\ Forall (audible k) (aired acts) ->
  length (on_the_air acts) = length (said E tr0 tr) /\ Forall (audible k) (aired acts) /\
  map handed (server_run (e_aes E) (e_cmac E) (ses w) (c - 1) (map (fun i => nth (Z.to_nat i) (on_the_air acts) []) is)) =
    map (fun i => (c + i, nth (Z.to_nat i) (said E tr0 tr) (false, None))) (fresh (-1) is).
Proof.
  intros HE W0 X0 W X N P c n Hc Hi Hp [A B]. destruct (frames_data E HE tr ops0 tr0 w ops w' W0 X0 W X P) as [D L]. unfold on_the_air. rewrite A, D.
  split; [symmetry; exact L|]. split; [exact B|]. unfold n in *. rewrite L in *. apply (C79_uplinks E ops0 tr0 w ops tr w' is); assumption.
Qed.
(** the frames the stack reads *)
Lemma heard_flat tr : heard_frames tr = reads (all_evs tr).
Proof. unfold heard_frames, all_evs, reads. induction tr as [|[[o v] es] tr IH]; [reflexivity|]. cbn [flat_map]. rewrite flat_map_app, IH. reflexivity. Qed.
Lemma reads_filter es : reads (filter asks_radio es) = reads es.
Proof. unfold reads. induction es as [|e es IH]; [reflexivity|]. destruct e; cbn [filter asks_radio flat_map app]; rewrite ?IH; reflexivity. Qed.
Lemma fetch_all (got : rentry -> list (list Z)) dtr : (forall t, by_stack t = false -> got t = []) -> forall es, Forall2 served es (filter by_stack dtr) ->
  Forall (fun t => forall e, served e t -> got t = reads [e]) dtr -> flat_map got dtr = reads es.
Proof.
  intro B. induction dtr as [|t dtr IH]; intros es F G; cbn [filter] in F; [inversion F; reflexivity|]. inversion G as [|? ? G1 G2]; subst. cbn [flat_map].
  destruct (by_stack t) eqn:Q; [|rewrite (B t Q); apply IH; assumption]. inversion F as [|e ? es' ? S F' Q1 Q2]; subst. rewrite (G1 e S), (IH es' F' G2). unfold reads. cbn [flat_map]. rewrite app_nil_r. reflexivity.
Qed.
Lemma rexec_join {S} (call : rop -> M S hev rval) h s a h1 s1 : rexec call h s a h1 s1 -> forall b h2 s2, rexec call h1 s1 b h2 s2 -> rexec call h s (a ++ b) h2 s2.
Proof. intros X b h2 s2 Y. induction Y as [h1 s1|h1 s1 tr h2 s2 o v s3 es Y IH C]; [rewrite app_nil_r; exact X|]. rewrite app_assoc. econstructor; [exact (IH X)|exact C]. Qed.
