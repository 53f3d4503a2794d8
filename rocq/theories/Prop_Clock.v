(** Prop_Clock.v -- time conversion and clock synchronisation: C41 - C46, C60. *)
From Verif Require Import LClock Demo Prop_Uplink.

(** ** C41 GPS/Unix conversion *)
Theorem C41_conversion : forall t, is_u32 t ->
  utils_unix_to_gps t = (t - 315964800 + 18) mod 4294967296 /\
  utils_gps_to_unix t = (t + 315964800 - 18) mod 4294967296 /\
  is_u32 (utils_unix_to_gps t) /\ is_u32 (utils_gps_to_unix t) /\
  utils_gps_to_unix (utils_unix_to_gps t) = t /\ utils_unix_to_gps (utils_gps_to_unix t) = t.
Proof.
  intros t H. unfold is_u32 in *. unfold utils_unix_to_gps, utils_gps_to_unix, u32.
  assert (A : forall a b, (a mod 4294967296 + b) mod 4294967296 = (a + b) mod 4294967296) by (intros; apply Zplus_mod_idemp_l).
  assert (B : forall a b, (a mod 4294967296 - b) mod 4294967296 = (a - b) mod 4294967296) by (intros; apply Zminus_mod_idemp_l).
  repeat rewrite ?A, ?B. split; [reflexivity|]. split; [reflexivity|].
  split; [apply Z.mod_pos_bound; lia|]. split; [apply Z.mod_pos_bound; lia|].
  split; (etransitivity; [|apply (Z.mod_small t 4294967296); exact H]); [f_equal; lia|]. rewrite <- A, B, A. f_equal. lia.
Qed.
Print Assumptions C41_conversion.

(** 2023-11-14 22:13:20 UTC; and a time before the GPS epoch *)
Example C41_case : utils_unix_to_gps 1700000000 = 1384035218 /\ utils_gps_to_unix 1384035218 = 1700000000 /\
  utils_unix_to_gps 0 = 3979002514.
Proof. repeat split. Qed.

(** ** C42 Clock sync: time request *)
Theorem C42_time_request : forall E ops tr w a v es w',
  env_ok E -> Forall op_wf ops -> exec E world0 ops tr w -> step E w (OCsSendReq a) = Some (v, es, w') ->
  let see := cs_seen E tr in
  (cv_cbs see = None -> v = VErr ERR_STATE /\ es = [] /\ w_st w' = w_st w) /\
  (cv_cbs see <> None -> exists e t, v = VErr e /\ readings es = [t] /\
     let payload := cv_ans see ++ [1] ++ le 4 (gps_of_unix t) ++ [cv_tok see + 16 * (if a then 1 else 0)] in
     tx_frames es = (match e with ERR_NO => [frame_of E w false CLOCK_PORT payload] | _ => [] end) /\
     (idle w -> send_result w payload e) /\ (~ idle w -> e = ERR_STATE) /\
     0 <= cv_tok see < 16 /\ len payload <= 15).
Proof.
  intros E ops tr w a v es w' HE Hw Hx H. assert (Hr : reachable E w) by (exists ops, tr; auto).
  pose proof (reach_Inv E w HE Hr) as HI. destruct (cs_exec E ops tr w HE Hw Hx) as (R1 & R2 & R3 & R4). cbv zeta.
  split.
  - intro Hn. rewrite <- R1 in Hn. apply step_call in H. destruct H as [H _]. cbn [call] in H. apply as_err_inv in H.
    destruct H as (e & -> & H). unfold uwan_clock_sync_send_time_req in H. revert H. msteps. rewrite Hn. intro H. injection H as <- <- <-. auto.
  - intro Hn. rewrite <- R1 in Hn.
    destruct (step_cs_req E w a v es w' HE HI H) as (e & -> & [(N & _)|(_ & es1 & -> & Hc)]); [contradiction|].
    exists e, (e_unixtime E (w_hist w)). split; [reflexivity|].
    assert (P : cs_req_payload E a (w_hist w) (w_st w) =
      cv_ans (cs_seen E tr) ++ [1] ++ le 4 (gps_of_unix (e_unixtime E (w_hist w))) ++ [cv_tok (cs_seen E tr) + 16 * (if a then 1 else 0)]).
    { unfold cs_req_payload. rewrite R2. destruct a; unfold b2z; f_equal.
      all: destruct (ans_pending (s_cs (w_st w))) eqn:Ep; [apply R4; reflexivity|].
      all: destruct (cv_ans (cs_seen E tr)); [reflexivity|]; exfalso; rewrite len_cons in R3; pose proof (len_nonneg l);
        destruct (Z.eqb_spec (1 + len l) 0); [lia|discriminate]. }
    destruct (cs_req_payload_ok E a (w_hist w) (w_st w) HE HI) as (_ & P15).
    pose proof (send_nocs _ _ _ _ _ _ _ _ _ Hc) as Nc. apply nocs_corr in Nc. destruct Nc as (_ & _ & Nr & _).
    destruct (cs_send_obs E w CS_PORT _ _ (cs_req_st (w_st w)) e (w_st w') es1 HE HI
      (ex_intro _ (set_app_time_req_pending true (s_cs (w_st w))) eq_refl) Hc) as (A & B & C).
    rewrite P in A, B, P15. split; [cbn [readings flat_map app] in *; unfold readings in Nr; rewrite Nr; reflexivity|].
    split; [exact A|]. split; [exact B|]. split; [exact C|]. split; [|exact P15].
    rewrite <- R2. destruct (iv_cs _ HI) as [X1 X2 X3 X4 X5]. exact X4.
Qed.
Print Assumptions C42_time_request.

(** a request with a pending PackageVersionAns, after one correction: token 1, AnsRequired *)
Definition clock_on : list op := abp 9 0 ++ [OCsInit (Some (Mk_cs_cbs true))].
Definition clock_msg (l : list Z) : op := OCsHandle ERR_NO (Some l) (len l) 202.
Example C42_case :
  run_of (demo [] []) [] (clock_on ++ [clock_msg [1; 5; 0; 0; 0; 0; 0]; OCsSendReq true])
    (fun w tr w' =>
       let see := cs_seen (demo [] []) (removelast tr) in
       let es := all_evs tr in
       list_eqb (cv_ans see) [0; 1; 1] && (cv_tok see =? 1) && (length (tx_frames es) =? 1)%nat &&
       match server_receive toy_aes toy_cmac k1 k2 637603841 9 (hd [] (tx_frames es)) with
       | Some u => match u_data u with
                   | Some (p, d) => (p =? 202) && list_eqb d ([0; 1; 1; 1] ++ le 4 (gps_of_unix (hd 0 (readings es))) ++ [17])
                   | None => false end
       | None => false
       end).
Proof. show_run. Qed.

(** ** C43 Clock sync: corrections applied once per token *)
Theorem C43_correction : forall E ops tr w o v es w' size l c,
  env_ok E -> Forall op_wf ops -> exec E world0 ops tr w -> op_wf o -> cs_msg o = Some (size, l) ->
  cv_cbs (cs_seen E tr) = Some c -> step E w o = Some (v, es, w') ->
  corrections es = carried (cv_tok (cs_seen E tr)) (executed E (has_periodicity c) size l) /\
  len (corrections es) <= 1.
Proof.
  intros E ops tr w o v es w' size l c HE Hws Hx Hw Hm Hc H. assert (Hr : reachable E w) by (exists ops, tr; auto).
  pose proof (reach_Inv E w HE Hr) as HI. destruct (cs_exec E ops tr w HE Hws Hx) as (R1 & R2 & R3 & R4). rewrite Hc in R1.
  destruct (step_cs_msg E w o v es w' size l c HE HI Hw Hm R1 H) as (S1 & S2 & S3 & S4 & S5).
  destruct (run_tokens E c (w_hist w) _ (cs_start (w_st w)) S2) as (T1 & T2). rewrite <- S4 in T1. cbn [cs_start ca_evs ca_tok] in T1. rewrite R2 in T1.
  cbn [app] in T1. change (corrections [] ++ ?x) with x in T1. split; [exact T1|]. rewrite T1.
  clear - S2. induction (executed E (has_periodicity c) size l) as [|q qs IH]; [cbn; lia|].
  apply nodup_cons in S2. destruct S2 as (N & K). specialize (IH N). unfold carried in *. cbn [flat_map].
  destruct q; cbn [app]; auto. destruct (token =? _); cbn [app]; auto.
  assert (Z0 : forall k, flat_map (fun q => match q with QAnswer c t => if t =? k then [c] else [] | _ => [] end) qs = []).
  { intro k. clear - K. induction qs as [|q qs IH]; [reflexivity|]. cbn [flat_map]. rewrite IH by (intros; apply K; right; assumption).
    destruct q; try reflexivity. exfalso. apply (K (QAnswer corr0 token0)); [left|]; reflexivity. }
  rewrite Z0. cbn. lia.
Qed.
Print Assumptions C43_correction.

(** nothing else applies a correction *)
Theorem C43_only : forall E ops tr w o v es w',
  env_ok E -> Forall op_wf ops -> exec E world0 ops tr w -> op_wf o -> step E w o = Some (v, es, w') ->
  corrections es <> [] -> cs_msg o <> None /\ cv_cbs (cs_seen E tr) <> None.
Proof.
  intros E ops tr w o v es w' HE Hws Hx Hw H Hc. assert (Hr : reachable E w) by (exists ops, tr; auto).
  pose proof (reach_Inv E w HE Hr) as HI. destruct (cs_exec E ops tr w HE Hws Hx) as (R1 & _).
  destruct (step_nocs E w o v es w' HE HI Hw H) as [(e & b & n & p & ->)|[(a & ->)|N]].
  - rewrite <- R1. split; intro X; apply Hc; (destruct (cs_no_msg E w e b n p v es w' HE HI Hw H) as (-> & _); [auto|reflexivity]).
  - exfalso. apply Hc. destruct (step_cs_req E w a v es w' HE HI H) as (e & -> & [(_ & _ & -> & _)|(_ & es1 & -> & Hs)]); [reflexivity|].
    apply send_nocs, nocs_corr in Hs. apply Hs.
  - exfalso. apply Hc. apply nocs_corr in N. apply N.
Qed.
Print Assumptions C43_only.

(** A repeated answer: when two answers with the same token are both applied, and the
    extension is not initialised in between, at least 16 corrections lie between them. *)
Theorem C43_replay : forall E ops1 tr1 w1 o1 v1 es1 w2 ops2 tr2 w3 o2 v2 es2 w4 size1 l1 size2 l2 c1 c2 tok c,
  env_ok E -> Forall op_wf ops1 -> exec E world0 ops1 tr1 w1 -> op_wf o1 -> step E w1 o1 = Some (v1, es1, w2) ->
  Forall op_wf ops2 -> exec E w2 ops2 tr2 w3 -> op_wf o2 -> step E w3 o2 = Some (v2, es2, w4) ->
  (forall x, ~ In (OCsInit x) ops2) ->
  cv_cbs (cs_seen E tr1) = Some c ->
  cs_msg o1 = Some (size1, l1) -> In (QAnswer c1 tok) (executed E (has_periodicity c) size1 l1) -> In c1 (corrections es1) ->
  cs_msg o2 = Some (size2, l2) -> In (QAnswer c2 tok) (executed E (has_periodicity c) size2 l2) -> In c2 (corrections es2) ->
  16 <= len (corrections (es1 ++ all_evs tr2)).
Proof.
  intros E ops1 tr1 w1 o1 v1 es1 w2 ops2 tr2 w3 o2 v2 es2 w4 size1 l1 size2 l2 c1 c2 tok c
    HE Hw1 X1 Ho1 S1 Hw2 X2 Ho2 S2 Hni Hc M1 A1 B1 M2 A2 B2.
  assert (Hr1 : reachable E w1) by (exists ops1, tr1; auto). pose proof (reach_Inv E w1 HE Hr1) as HI1.
  pose proof (step_reach E w1 o1 v1 es1 w2 Hr1 Ho1 S1) as Hr2.
  pose proof (cs_exec E ops1 tr1 w1 HE Hw1 X1) as R1.
  assert (Tk : 0 <= cv_tok (cs_seen E tr1) < 16).
  { destruct R1 as (_ & R2 & _). rewrite <- R2. destruct (iv_cs _ HI1). assumption. }
  pose proof (cs_step E w1 o1 v1 es1 w2 _ HE HI1 Ho1 S1 R1) as R2. set (vw := cs_see E (cs_seen E tr1) (o1, v1, es1)) in *.
  assert (I1 : is_cs_init o1 = false) by (destruct o1; try reflexivity; discriminate).
  destruct (see_tok E w1 o1 v1 es1 w2 (cs_seen E tr1) HE HI1 Ho1 S1 I1 Tk) as (T2 & C2). fold vw in T2, C2.
  assert (I2 : forallb (fun o => negb (is_cs_init o)) ops2 = true).
  { apply forallb_forall. intros x Hx. destruct x; try reflexivity. exfalso. apply (Hni cbs). exact Hx. }
  assert (Tk2 : 0 <= cv_tok vw < 16) by (rewrite T2; apply Z.mod_pos_bound; lia).
  destruct (exec_tok E ops2 w2 tr2 w3 vw HE Hw2 Hr2 X2 I2 Tk2) as (T3 & C3).
  assert (Full : exists ops3, Forall op_wf ops3 /\ exec E world0 ops3 (tr1 ++ (o1, v1, es1) :: tr2) w3).
  { exists (ops1 ++ o1 :: ops2). split; [apply Forall_app; split; [exact Hw1|constructor; assumption]|].
    eapply exec_app; [exact X1|]. eapply exec_cons; [exact S1|exact X2]. }
  destruct Full as (ops3 & Hw3 & X3).
  assert (Seen : cs_seen E (tr1 ++ (o1, v1, es1) :: tr2) = fold_left (cs_see E) tr2 vw) by (unfold cs_seen; rewrite fold_left_app; reflexivity).
  assert (Tok : forall ops tr w o v es w' size l x, Forall op_wf ops -> exec E world0 ops tr w -> op_wf o -> cs_msg o = Some (size, l) ->
    cv_cbs (cs_seen E tr) = Some c -> step E w o = Some (v, es, w') -> In (QAnswer x tok) (executed E (has_periodicity c) size l) ->
    corrections es <> [] -> cv_tok (cs_seen E tr) = tok).
  { intros ops tr w o v es w' size l x Y1 Y2 Y3 Y4 Y5 Y6 Y7 Y8.
    destruct (C43_correction E ops tr w o v es w' size l c HE Y1 Y2 Y3 Y4 Y5 Y6) as (Z1 & _).
    assert (Hr : reachable E w) by (exists ops, tr; auto). pose proof (reach_Inv E w HE Hr) as HI.
    destruct (cs_exec E ops tr w HE Y1 Y2) as (Rx & _). rewrite Y5 in Rx.
    destruct (step_cs_msg E w o v es w' size l c HE HI Y3 Y4 Rx Y6) as (_ & Nd & _).
    rewrite Z1 in Y8. clear - Y7 Y8 Nd. set (k := cv_tok (cs_seen E tr)) in *. clearbody k.
    induction (executed E (has_periodicity c) size l) as [|q qs IH]; [destruct Y7|].
    apply nodup_cons in Nd. destruct Nd as (N & K). destruct Y7 as [->|Y7].
    - unfold carried in Y8. cbn [flat_map] in Y8. destruct (Z.eqb_spec tok k) as [Q|Q]; [congruence|]. exfalso. apply Y8. cbn [app].
      clear - K. induction qs as [|q qs IH]; [reflexivity|]. cbn [flat_map]. rewrite IH by (intros; apply K; right; assumption).
      destruct q; try reflexivity. exfalso. apply (K (QAnswer corr token)); [left|]; reflexivity.
    - apply IH; try assumption. unfold carried in *. cbn [flat_map] in Y8. destruct q; try exact Y8. exfalso.
      apply (K _ Y7). reflexivity. }
  assert (E1 : cv_tok (cs_seen E tr1) = tok).
  { apply (Tok ops1 tr1 w1 o1 v1 es1 w2 size1 l1 c1); try assumption. intro Q. rewrite Q in B1. destruct B1. }
  assert (E2 : cv_tok (cs_seen E (tr1 ++ (o1, v1, es1) :: tr2)) = tok).
  { apply (Tok ops3 _ w3 o2 v2 es2 w4 size2 l2 c2); try assumption.
    - rewrite Seen, C3, C2. exact Hc.
    - intro Q. rewrite Q in B2. destruct B2. }
  rewrite Seen, T3, T2, E1 in E2. rewrite corrections_app, len_app.
  assert (P1 : 1 <= len (corrections es1)) by (destruct (corrections es1); [destruct B1|rewrite len_cons; pose proof (len_nonneg l); lia]).
  pose proof (len_nonneg (corrections (all_evs tr2))) as P2. rewrite Z.add_mod_idemp_l in E2 by lia. rewrite E1 in Tk.
  set (n1 := len (corrections es1)) in *. set (n2 := len (corrections (all_evs tr2))) in *. clearbody n1 n2.
  assert (Q := Z.div_mod (tok + n1 + n2) 16 ltac:(lia)). rewrite E2 in Q. lia.
Qed.
Print Assumptions C43_replay.

(** the answer is applied, its repetition is not; the next token is *)
Example C43_case :
  run_of (demo [] []) [] (clock_on ++ [clock_msg [1; 251; 255; 255; 255; 0]; clock_msg [1; 251; 255; 255; 255; 0]; clock_msg [0; 1; 9; 0; 0; 0; 1]])
    (fun w tr w' => list_eqb (corrections (all_evs tr)) [-5; 9]).
Proof. show_run. Qed.
(** sixteen answers: the first token is current again *)
Example C43_replay_case :
  run_of (demo [] []) [] (clock_on ++ map (fun k => clock_msg [1; 7; 0; 0; 0; k]) [0; 1; 2; 3; 4; 5; 6; 7; 8; 9; 10; 11; 12; 13; 14; 15; 0])
    (fun w tr w' => list_eqb (corrections (all_evs tr)) (repeat 7 17)).
Proof. show_run. Qed.

(** ** C44 Clock sync: the prepared answer *)
Theorem C44_answer : forall E ops tr w o v es w' size l c,
  env_ok E -> Forall op_wf ops -> exec E world0 ops tr w -> op_wf o -> cs_msg o = Some (size, l) ->
  cv_cbs (cs_seen E tr) = Some c -> step E w o = Some (v, es, w') ->
  let reqs := executed E (has_periodicity c) size l in
  let ans := flat_map (cs_answer_to (has_periodicity c) (hd 0 (readings es))) reqs in
  NoDup (map cs_kind reqs) /\ len (readings es) = len (period_ids reqs) /\ len ans <= 9 /\
  step E w' OCsPending = Some (VBool (negb (is_nil ans)), [], w') /\
  (forall v2 es2 w2, step E w' OCsSendAns = Some (v2, es2, w2) -> idle w' -> some_channel w' ->
     if is_nil ans then v2 = VErr ERR_STATE /\ tx_frames es2 = [] else
     len ans <= max_payload w' -> tx_frames es2 = [frame_of E w' false CLOCK_PORT ans]).
Proof.
  intros E ops tr w o v es w' size l c HE Hws Hx Hw Hm Hc H. cbv zeta. assert (Hr : reachable E w) by (exists ops, tr; auto).
  pose proof (reach_Inv E w HE Hr) as HI. pose proof (step_reach E w o v es w' Hr Hw H) as Hr'. pose proof (reach_Inv E w' HE Hr') as HI'.
  pose proof (cs_exec E ops tr w HE Hws Hx) as R. pose proof (cs_step E w o v es w' _ HE HI Hw H R) as R'.
  destruct R as (R1 & R2 & R3 & R4). rewrite Hc in R1.
  destruct (step_cs_msg E w o v es w' size l c HE HI Hw Hm R1 H) as (S1 & S2 & S3 & S4 & S5).
  set (reqs := executed E (has_periodicity c) size l) in *.
  assert (Va : cv_ans (cs_see E (cs_seen E tr) (o, v, es)) = flat_map (cs_answer_to (has_periodicity c) (hd 0 (readings es))) reqs).
  { unfold cs_msg in Hm. destruct o; try discriminate. destruct e; try discriminate. cbn [cs_see cv_ans]. rewrite Hc. unfold cs_msg. rewrite Hm. reflexivity. }
  destruct R' as (Q1 & Q2 & Q3 & Q4). rewrite Va in Q3, Q4. set (ans := flat_map _ reqs) in *.
  split; [exact S2|]. split; [rewrite S4, run_readings; reflexivity|].
  split. { pose proof (run_answers E c (w_hist w) reqs (cs_start (w_st w)) S2 eq_refl) as Ra. rewrite <- S4 in Ra. cbn [cs_start ca_ans app] in Ra. fold ans in Ra. rewrite <- Ra. exact S5. }
  assert (Nil : negb (len ans =? 0) = negb (is_nil ans)).
  { destruct ans as [|x r]; [reflexivity|]. rewrite len_cons. pose proof (len_nonneg r). cbn [is_nil]. f_equal. lia. }
  split.
  { rewrite (simple_step E w' OCsPending _ _ HI' I eq_refl), Q3, Nil, world_eta. reflexivity. }
  intros v2 es2 w2 H2 Hid Hch. pose proof (step_cs_ans E w' v2 es2 w2 HE HI' H2) as (e & -> & K).
  destruct (is_nil ans) eqn:En; cbn [negb] in Nil; rewrite Nil in Q3.
  - split; [|destruct K as [(_ & _ & -> & _)|(K & _)]; [reflexivity|congruence]].
    apply step_call in H2. destruct H2 as (H2 & _). cbn [call] in H2. apply as_err_inv in H2. destruct H2 as (e' & He & H2). rewrite He.
    unfold uwan_clock_sync_send_answ in H2. revert H2. msteps. rewrite Q3. cbn [negb]. intro Y. injection Y as <- _ _. reflexivity.
  - intro Hl. destruct K as [(K & _)|(K & Hs)]; [congruence|]. rewrite (Q4 Q3) in Hs.
    destruct (cs_send_obs E w' CS_PORT ans (w_hist w') (w_st w') e (w_st w2) es2 HE HI' ltac:(exists (s_cs (w_st w')); destruct (w_st w'); reflexivity) Hs) as (A & B & _).
    assert (e = ERR_NO).
    { specialize (B Hid). inversion B; subst.
      - exfalso. destruct Hch as (i & Hi & Ho). rewrite (H0 i Hi) in Ho. discriminate.
      - exfalso. destruct H1 as [Y|(Y & _)]; [lia|]. rewrite Y in En. discriminate.
      - reflexivity. }
    subst e. exact A.
Qed.
Print Assumptions C44_answer.

(** the answer waiting to be sent, at any point of any execution *)
Theorem C44_pending : forall E ops tr w,
  env_ok E -> Forall op_wf ops -> exec E world0 ops tr w ->
  let ans := cv_ans (cs_seen E tr) in
  len ans <= 9 /\ step E w OCsPending = Some (VBool (negb (is_nil ans)), [], w) /\
  forall v es w', step E w OCsSendAns = Some (v, es, w') -> exists e, v = VErr e /\
    if is_nil ans then e = ERR_STATE /\ es = [] /\ w_st w' = w_st w else
    tx_frames es = (match e with ERR_NO => [frame_of E w false CLOCK_PORT ans] | _ => [] end) /\
    (idle w -> send_result w ans e) /\ (~ idle w -> e = ERR_STATE).
Proof.
  intros E ops tr w HE Hws Hx. cbv zeta. assert (Hr : reachable E w) by (exists ops, tr; auto).
  pose proof (reach_Inv E w HE Hr) as HI. destruct (cs_exec E ops tr w HE Hws Hx) as (R1 & R2 & R3 & R4).
  set (ans := cv_ans (cs_seen E tr)) in *.
  assert (Nil : negb (len ans =? 0) = negb (is_nil ans)).
  { destruct ans as [|x r]; [reflexivity|]. rewrite len_cons. pose proof (len_nonneg r). cbn [is_nil]. f_equal. lia. }
  split. { destruct (ans_pending (s_cs (w_st w))) eqn:Ep; [|destruct ans; [cbn; lia|rewrite Nil in R3; discriminate]].
    rewrite <- R4 by reflexivity. destruct (cs_answer_ok (w_st w) HI) as (_ & ->). destruct (iv_cs _ HI) as [X1 X2 X3 X4 X5]. lia. }
  split. { rewrite (simple_step E w OCsPending _ _ HI I eq_refl), R3, Nil, world_eta. reflexivity. }
  intros v es w' H. pose proof (step_cs_ans E w v es w' HE HI H) as (e & -> & K). exists e. split; [reflexivity|].
  destruct (is_nil ans) eqn:En; cbn [negb] in Nil; rewrite Nil in R3.
  - apply step_call in H. destruct H as (H & _). cbn [call] in H. apply as_err_inv in H. destruct H as (e' & He & H). injection He as ->.
    unfold uwan_clock_sync_send_answ in H. revert H. msteps. rewrite R3. cbn [negb]. intro Y. injection Y as <- <- <-. auto.
  - destruct K as [(K & _)|(K & Hs)]; [congruence|]. rewrite (R4 R3) in Hs.
    apply (cs_send_obs E w CS_PORT ans (w_hist w) (w_st w) e (w_st w') es HE HI ltac:(exists (s_cs (w_st w)); destruct (w_st w); reflexivity) Hs).
Qed.
Print Assumptions C44_pending.

(** a version request, a duplicate of it ends the message *)
Example C44_case :
  case_of (demo [] []) clock_on (clock_msg [0; 2; 1; 3; 2; 0; 1; 0; 0; 0; 0; 0])
    (fun w v es w' => list_eqb (cs_answer (w_st w')) ([0; 1; 1; 2; 0] ++ le 4 (gps_of_unix (hd 0 (readings es)))) &&
       list_eqb (corrections es) [] && list_eqb (periods es) [256]).
Proof. show_case. Qed.
Example C44_pending_case :
  run_of (demo [] []) [] (clock_on ++ [clock_msg [0]; OCsPending; OCsSendAns])
    (fun w tr w' => match nth 4 tr (OGetMax, VUnit, []) with (_, VBool b, _) => b | _ => false end &&
       match server_receive toy_aes toy_cmac k1 k2 637603841 9 (hd [] (tx_frames (all_evs tr))) with
       | Some u => match u_data u with Some (p, d) => (p =? 202) && list_eqb d [0; 1; 1] | None => false end
       | None => false end).
Proof. show_run. Qed.

(** Messages made of distinct well-formed commands, without reference to how the device
    scans a message: every command is executed. *)
Theorem C44_wellformed : forall E ops tr w qs post c,
  env_ok E -> Forall op_wf ops -> exec E world0 ops tr w -> cv_cbs (cs_seen E tr) = Some c ->
  Forall cs_req_ok qs -> NoDup (map cs_kind qs) -> qs <> [] -> bytes_ok post ->
  forallb (cs_req_safe (e_strict_shl E) (has_periodicity c)) qs = true ->
  let msg := flat_map cs_encode qs in
  exists es w', step E w (OCsHandle ERR_NO (Some (msg ++ post)) (len msg) CLOCK_PORT) = Some (VUnit, es, w') /\
    corrections es = carried (cv_tok (cs_seen E tr)) qs /\
    len (readings es) = len (period_ids qs) /\
    let ans := flat_map (cs_answer_to (has_periodicity c) (hd 0 (readings es))) qs in
    step E w' OCsPending = Some (VBool (negb (is_nil ans)), [], w') /\
    (forall v2 es2 w2, step E w' OCsSendAns = Some (v2, es2, w2) -> idle w' -> some_channel w' ->
       if is_nil ans then v2 = VErr ERR_STATE /\ tx_frames es2 = [] else
       len ans <= max_payload w' -> tx_frames es2 = [frame_of E w' false CLOCK_PORT ans]).
Proof.
  intros E ops tr w qs post c HE Hws Hx Hc Hok Hn Hne Hpost Hsafe. cbv zeta. set (msg := flat_map cs_encode qs).
  assert (Hr : reachable E w) by (exists ops, tr; auto). pose proof (reach_Inv E w HE Hr) as HI.
  destruct (cs_exec E ops tr w HE Hws Hx) as (R1 & R2 & R3 & R4). rewrite Hc in R1.
  assert (Hb : bytes_ok msg).
  { unfold msg. clear - Hok. induction Hok as [|q qs Hq _ IH]; [constructor|]. cbn [flat_map]. apply Forall_app. split; [|exact IH].
    destruct q; cbn [cs_encode cs_req_ok] in *; try (repeat constructor; lia). apply Forall_app. split; [repeat constructor; lia|].
    apply Forall_app. split; [apply le_bytes|repeat constructor; lia]. }
  assert (Hl : 0 < len msg <= 255).
  { assert (Low : forall q, In q qs -> 0 <= cs_kind q < 4) by (intros [] _; cbn; lia).
    assert (L4 : (length qs <= 4)%nat).
    { rewrite <- (map_length cs_kind). replace 4%nat with (length [0; 1; 2; 3]) by reflexivity. apply NoDup_incl_length; [exact Hn|].
      intros x Hx'. apply in_map_iff in Hx'. destruct Hx' as (q & <- & _). destruct q; cbn; auto. }
    assert (Le : forall q, 1 <= len (cs_encode q) <= 6) by (intros []; cbn [cs_encode]; rewrite ?len_app; unfold len; rewrite ?le_length; cbn [length]; lia).
    assert (Lm : forall l, Z.of_nat (length l) <= len (flat_map cs_encode l) <= 6 * Z.of_nat (length l)).
    { induction l as [|q l IH]; [cbn; lia|]. cbn [flat_map length]. rewrite len_app. pose proof (Le q). lia. }
    specialize (Lm qs). unfold msg. destruct qs; [congruence|]. cbn [length] in *. lia. }
  assert (Mp : msg_of (len msg) (msg ++ post) = msg /\ post_of (len msg) (msg ++ post) = post).
  { unfold msg_of, post_of, len. rewrite Nat2Z.id. rewrite firstn_app, skipn_app, Nat.sub_diag, firstn_all, skipn_all. cbn. rewrite app_nil_r. auto. }
  assert (Sc : cs_scan (e_strict_shl E) (has_periodicity c) post [] msg = inl qs) by (apply scan_encoded; auto).
  set (o := OCsHandle ERR_NO (Some (msg ++ post)) (len msg) CLOCK_PORT).
  assert (Hw : op_wf o).
  { unfold o. cbn [op_wf]. unfold is_u8. split; [lia|]. split; [cbv; intuition discriminate|]. split; [apply Forall_app; auto|]. rewrite len_app. pose proof (len_nonneg post). lia. }
  assert (Hm : cs_msg o = Some (len msg, msg ++ post)) by (unfold o, cs_msg; replace (len msg =? 0) with false by lia; reflexivity).
  destruct (step E w o) as [[[v es] w']|] eqn:H.
  2: { exfalso. unfold step in H. destruct (call E o (w_hist w) (w_st w)) as [[[? ?] ?]|k] eqn:Hcall; [discriminate|].
       apply (cs_undef E w o k (len msg) (msg ++ post) c HE HI Hw Hm R1) in Hcall. destruct Mp as (M1 & M2). rewrite M1, M2, Sc in Hcall. discriminate. }
  exists es, w'. destruct (step_cs_msg E w o v es w' _ _ c HE HI Hw Hm R1 H) as (S1 & S2 & S3 & S4 & S5).
  assert (Ex : executed E (has_periodicity c) (len msg) (msg ++ post) = qs).
  { unfold executed. destruct Mp as (M1 & M2). rewrite M1, M2, Sc. reflexivity. }
  destruct (C43_correction E ops tr w o v es w' _ _ c HE Hws Hx Hw Hm Hc H) as (Cc & _).
  destruct (C44_answer E ops tr w o v es w' _ _ c HE Hws Hx Hw Hm Hc H) as (_ & A2 & _ & A4 & A5). rewrite Ex in *.
  assert (v = VUnit). { pose proof (step_cs_handle E w _ _ _ _ v es w' HE HI Hw H) as (Y & _). exact Y. }
  subst v. split; [reflexivity|]. split; [exact Cc|]. split; [exact A2|]. cbv zeta. split; [exact A4|exact A5].
Qed.
Print Assumptions C44_wellformed.

(** a correction, a periodicity request and a resync in one message, all executed *)
Example C44_wellformed_case :
  let qs := [QAnswer (-5) 0; QPeriod 1; QResync 3; QVersion] in
  Forall cs_req_ok qs /\ NoDup (map cs_kind qs) /\ forallb (cs_req_safe false true) qs = true /\
  case_of (demo [] []) clock_on (clock_msg (flat_map cs_encode qs))
    (fun w v es w' => list_eqb (corrections es) [-5] && (length (resyncs es) =? 1)%nat && list_eqb (periods es) [256] &&
       list_eqb (cs_answer (w_st w')) ([2; 0] ++ le 4 (gps_of_unix (hd 0 (readings es))) ++ [0; 1; 1])).
Proof.
  cbv zeta. split; [repeat constructor; cbn; lia|]. split; [repeat constructor; cbn; intuition congruence|]. split; [reflexivity|]. show_case.
Qed.

(** ** C45 Clock sync: malformed messages *)
(** the property: handling a received message is always defined, and what lies behind
    the message has no influence *)
Definition C45_claim (P : op -> ub -> Prop) : Prop := forall E w o k,
  env_ok E -> e_strict_shl E = false -> reachable E w -> op_wf o -> cs_msg o <> None -> P o k ->
  call E o (w_hist w) (w_st w) <> Undef k.
Definition C45_no_reading_beyond : Prop := forall E w size l1 l2 r1 r2,
  env_ok E -> reachable E w -> msg_of size l1 = msg_of size l2 ->
  op_wf (OCsHandle ERR_NO (Some l1) size CLOCK_PORT) -> op_wf (OCsHandle ERR_NO (Some l2) size CLOCK_PORT) ->
  step E w (OCsHandle ERR_NO (Some l1) size CLOCK_PORT) = Some r1 ->
  step E w (OCsHandle ERR_NO (Some l2) size CLOCK_PORT) = Some r2 -> snd (fst r1) = snd (fst r2).

Lemma clock_on_runs : forallb op_wfb clock_on && runs (demo [] []) clock_on = true. Proof. vm_compute. reflexivity. Qed.
Ltac cs_witness C msg k :=
  apply (C (demo [] []) (after (demo [] []) clock_on) (OCsHandle ERR_NO (Some msg) (len msg) 202) k);
  [apply demo_ok|reflexivity|apply after_reach, clock_on_runs|apply op_wfb_ok; reflexivity|discriminate|reflexivity|vm_compute; reflexivity].

(** command byte 32 and above: [1 << cmd] *)
Theorem C45_shift_refuted : ~ C45_claim (fun _ k => k = UB_shift).
Proof. intro C. cs_witness C [32] UB_shift. Qed.
Print Assumptions C45_shift_refuted.
(** period id 6 and above: [mul * mul] *)
Theorem C45_overflow_refuted : ~ C45_claim (fun _ k => k = UB_overflow).
Proof. intro C. cs_witness C [2; 6] UB_overflow. Qed.
Print Assumptions C45_overflow_refuted.
(** ForceDeviceResyncReq without its argument: read outside the buffer *)
Theorem C45_oob_refuted : ~ C45_claim (fun _ k => k = UB_oob).
Proof. intro C. cs_witness C [3] UB_oob. Qed.
Print Assumptions C45_oob_refuted.
(** ... or, where the buffer is longer than the message, of a stale byte *)
Theorem C45_beyond_refuted : ~ C45_no_reading_beyond.
Proof.
  intro C. assert (X : forallb op_wfb clock_on && runs (demo [] []) clock_on = true) by (vm_compute; reflexivity).
  specialize (C (demo [] []) (after (demo [] []) clock_on) 1 [3; 0] [3; 1]).
  destruct (step (demo [] []) (after (demo [] []) clock_on) (OCsHandle ERR_NO (Some [3; 0]) 1 CLOCK_PORT)) as [[[v1 e1] w1]|] eqn:S1; [|vm_compute in S1; discriminate].
  destruct (step (demo [] []) (after (demo [] []) clock_on) (OCsHandle ERR_NO (Some [3; 1]) 1 CLOCK_PORT)) as [[[v2 e2] w2]|] eqn:S2; [|vm_compute in S2; discriminate].
  specialize (C _ _ (demo_ok _ _) (after_reach _ _ X) eq_refl ltac:(apply op_wfb_ok; reflexivity) ltac:(apply op_wfb_ok; reflexivity) eq_refl eq_refl).
  cbn [fst snd] in C. subst e2.
  assert (length (resyncs e1) = 0%nat) by (vm_compute in S1; injection S1 as <- <- <-; reflexivity).
  assert (length (resyncs e1) = 1%nat) by (vm_compute in S2; injection S2 as <- <- <-; reflexivity). lia.
Qed.
Print Assumptions C45_beyond_refuted.

(** What is true: exactly which messages are undefined, in every reachable state ... *)
Theorem C45_exact_partial : forall E ops tr w o size l c k,
  env_ok E -> Forall op_wf ops -> exec E world0 ops tr w -> op_wf o -> cs_msg o = Some (size, l) ->
  cv_cbs (cs_seen E tr) = Some c ->
  (call E o (w_hist w) (w_st w) = Undef k <->
   cs_scan (e_strict_shl E) (has_periodicity c) (post_of size l) [] (msg_of size l) = inr k).
Proof.
  intros E ops tr w o size l c k HE Hws Hx Hw Hm Hc. assert (Hr : reachable E w) by (exists ops, tr; auto).
  pose proof (reach_Inv E w HE Hr) as HI. destruct (cs_exec E ops tr w HE Hws Hx) as (R1 & _). rewrite Hc in R1.
  exact (cs_undef E w o k size l c HE HI Hw Hm R1).
Qed.
Print Assumptions C45_exact_partial.

(** ... and a simple sufficient condition: no byte of the message is 32 or more or, when the
    application wants periodicities, 6 or more, and the last one is not 3. *)
Lemma scan_calm (per : bool) post : forall n l seen, (length l <= n)%nat -> Forall (fun b => 0 <= b < (if per then 6 else 32)) l -> last l 0 <> 3 ->
  exists qs, cs_scan false per post seen l = inl qs.
Proof.
  assert (Lst : forall (b : Z) r, r <> [] -> last (b :: r) 0 = last r 0) by (intros b [|x r] Hr; [congruence|reflexivity]).
  assert (Con : forall q (x : list cs_req + ub), (exists qs, x = inl qs) -> exists qs, scan_cons q x = inl qs) by (intros q x (qs & ->); cbn; eauto).
  induction n as [|n IH]; intros l seen Hn Hb Hl.
  - destruct l; [cbn; eauto|cbn [length] in Hn; lia].
  - destruct l as [|c r]; [cbn; eauto|].
    apply Forall_cons_iff in Hb. destruct Hb as [Hc Hb]. cbn [length] in Hn.
    assert (Lr : last r 0 <> 3).
    { destruct r as [|x r']; [cbn; lia|]. rewrite <- (Lst c) by discriminate. exact Hl. }
    assert (Step : forall s, exists qs, cs_scan false per post s r = inl qs) by (intro s; apply IH; [lia|exact Hb|exact Lr]).
    assert (C32 : (32 <=? c) || (false && (c =? 31)) = false) by (destruct per; lia).
    cbn [cs_scan]. rewrite C32. destruct (existsb (Z.eqb c) seen); [eauto|].
    destruct (c =? 0); [apply Con, Step|].
    destruct (c =? 1).
    { destruct r as [|b0 [|b1 [|b2 [|b3 [|b4 r']]]]]; try apply Step. cbn [andb]. apply Con. apply IH.
      - cbn [length] in Hn. lia.
      - do 5 (apply Forall_cons_iff in Hb; destruct Hb as [_ Hb]). exact Hb.
      - destruct r' as [|x r']; [cbn; lia|]. do 5 (rewrite Lst in Lr by discriminate). exact Lr. }
    destruct (c =? 2).
    { destruct r as [|p r']; [eauto|]. apply Forall_cons_iff in Hb. destruct Hb as [Hp Hb].
      assert (per && (5 <? p) = false) as -> by (destruct per; lia). apply Con. apply IH; [cbn [length] in Hn; lia|exact Hb|].
      destruct r' as [|x r']; [cbn; lia|]. rewrite Lst in Lr by discriminate. exact Lr. }
    destruct (c =? 3) eqn:E3; [|apply Step].
    destruct r as [|b r']; [cbn in Hl; lia|]. apply Forall_cons_iff in Hb. destruct Hb as [_ Hb]. apply Con. apply IH; [cbn [length] in Hn; lia|exact Hb|].
    destruct r' as [|x r']; [cbn; lia|]. rewrite Lst in Lr by discriminate. exact Lr.
Qed.

Theorem C45_partial : forall E ops tr w o size l c,
  env_ok E -> e_strict_shl E = false -> Forall op_wf ops -> exec E world0 ops tr w -> op_wf o -> cs_msg o = Some (size, l) ->
  cv_cbs (cs_seen E tr) = Some c ->
  Forall (fun b => b < if has_periodicity c then 6 else 32) (msg_of size l) -> last (msg_of size l) 0 <> 3 ->
  exists es w', step E w o = Some (VUnit, es, w').
Proof.
  intros E ops tr w o size l c HE Hs Hws Hx Hw Hm Hc Hb Hl. assert (Hr : reachable E w) by (exists ops, tr; auto).
  pose proof (reach_Inv E w HE Hr) as HI. destruct (step E w o) as [[[v es] w']|] eqn:H.
  - unfold cs_msg in Hm. destruct o; try discriminate. destruct (step_cs_handle E w _ _ _ _ v es w' HE HI Hw H) as (-> & _). eauto.
  - exfalso. unfold step in H. destruct (call E o (w_hist w) (w_st w)) as [[[? ?] ?]|k] eqn:Hcall; [discriminate|].
    apply (C45_exact_partial E ops tr w o size l c k HE Hws Hx Hw Hm Hc) in Hcall. rewrite Hs in Hcall.
    destruct (scan_calm (has_periodicity c) (post_of size l) (length (msg_of size l)) (msg_of size l) [] (Nat.le_refl _)) as (qs & Q); [|exact Hl|congruence].
    assert (Bl : bytes_ok l).
    { clear - Hm Hw. unfold cs_msg in Hm. destruct o; try discriminate. destruct e; try discriminate. destruct buf as [l'|]; try discriminate.
      destruct (negb (size0 =? 0) && (port =? CLOCK_PORT)); [|discriminate]. injection Hm as -> ->. cbn [op_wf] in Hw. tauto. }
    unfold msg_of in *. rewrite Forall_forall in *. intros b Hin. split; [|apply Hb; exact Hin].
    assert (Hi2 : In b l) by (rewrite <- (firstn_skipn (Z.to_nat size) l); apply in_or_app; auto).
    unfold bytes_ok in Bl. rewrite Forall_forall in Bl. specialize (Bl b Hi2). unfold is_byte in Bl. lia.
Qed.
Print Assumptions C45_partial.

(** a garbled message of small bytes is handled; anything else given to the extension too *)
Example C45_case :
  case_of (demo [] []) clock_on (clock_msg [5; 4; 1; 0; 3; 2])
    (fun w v es w' => (length (resyncs es) =? 1)%nat && list_eqb (corrections es) []).
Proof. show_case. Qed.

(** Downlinks on other ports, failed receptions and messages before the extension is
    initialised are harmless. *)
Theorem C45_others : forall E ops tr w e b n p,
  env_ok E -> Forall op_wf ops -> exec E world0 ops tr w -> op_wf (OCsHandle e b n p) ->
  cs_msg (OCsHandle e b n p) = None \/ cv_cbs (cs_seen E tr) = None ->
  exists w', step E w (OCsHandle e b n p) = Some (VUnit, [], w') /\ cs_see E (cs_seen E tr) (OCsHandle e b n p, VUnit, []) =
    (match e with ERR_NO => Mk_cs_view (cv_cbs (cs_seen E tr)) (cv_tok (cs_seen E tr)) [] | _ => cs_seen E tr end).
Proof.
  intros E ops tr w e b n p HE Hws Hx Hw Hno. assert (Hr : reachable E w) by (exists ops, tr; auto).
  pose proof (reach_Inv E w HE Hr) as HI. destruct (cs_exec E ops tr w HE Hws Hx) as (R1 & R2 & R3 & R4).
  assert (Tok : (cv_tok (cs_seen E tr) + len (corrections [])) mod 16 = cv_tok (cs_seen E tr)).
  { destruct (iv_cs _ HI) as [X1 X2 X3 X4 X5]. rewrite Z.add_0_r, <- R2. apply Z.mod_small. lia. }
  assert (D : exists v es w', step E w (OCsHandle e b n p) = Some (v, es, w')).
  { unfold step. destruct (call E (OCsHandle e b n p) (w_hist w) (w_st w)) as [[[v s'] es]|k] eqn:Q; [eauto|exfalso]. rewrite <- R1 in Hno. clear - Q Hno Hw.
    destruct Hw as (W1 & W2 & W3). unfold is_u8 in *. cbn [call] in Q. unfold as_unit, uwan_clock_sync_handle_time_answ in Q.
    destruct e; cbn [is_ERR_NO negb] in Q; try discriminate. revert Q. msteps.
    destruct (negb (n =? 0) && (p =? CS_PORT)) eqn:Eg; [|discriminate]. unfold handle_answ. msteps. cbn [s_cs on_cs cs_callbacks set_ans_pending set_app_time_req_pending].
    destruct b as [l|]; [|lia]. destruct Hno as [Hno|Hno].
    - unfold cs_msg in Hno. change CLOCK_PORT with CS_PORT in Hno. rewrite Eg in Hno. discriminate.
    - change (cs_callbacks (s_cs (on_cs (set_ans_pending false) (on_cs (set_app_time_req_pending false) (w_st w))))) with (cs_callbacks (s_cs (w_st w))).
      rewrite Hno. discriminate. }
  destruct D as (v & es & w' & H). destruct (cs_no_msg E w e b n p v es w' HE HI Hw H ltac:(rewrite R1; exact Hno)) as (-> & S).
  destruct (step_cs_handle E w _ _ _ _ v _ w' HE HI Hw H) as (-> & _). exists w'. split; [exact H|].
  unfold cs_see. destruct e; try reflexivity. rewrite Tok. f_equal. destruct Hno as [-> | ->]; [destruct (cv_cbs (cs_seen E tr)); reflexivity|reflexivity].
Qed.
Print Assumptions C45_others.

(** ** C46 Clock sync: periodicity *)
(** the property, for the period ids in [P] *)
Definition C46_claim (P : Z -> Prop) : Prop := forall E ops tr w p c,
  env_ok E -> Forall op_wf ops -> exec E world0 ops tr w -> cv_cbs (cs_seen E tr) = Some c -> has_periodicity c = true ->
  0 <= p <= 15 -> P p ->
  exists v es w', step E w (OCsHandle ERR_NO (Some [2; p]) 2 CLOCK_PORT) = Some (v, es, w') /\ periods es = [128 * 2 ^ p].

Lemma clock_on_wf : Forall op_wf clock_on.
Proof. apply Forall_forall. intros o Ho. apply op_wfb_ok. revert o Ho. apply forallb_forall. reflexivity. Qed.
Ltac run_clock C p tac :=
  let X := fresh in let tr := fresh in let wd := fresh in let v := fresh in let es := fresh in let w' := fresh in let H := fresh in let Hp := fresh in
  destruct (run (demo [] []) world0 clock_on) as [[tr wd]|] eqn:X; [|vm_compute in X; discriminate];
  destruct (C (demo [] []) clock_on tr wd p (Mk_cs_cbs true) (demo_ok _ _) clock_on_wf (run_exec _ _ _ _ _ X))
    as (v & es & w' & H & Hp);
  [vm_compute in X; injection X as <- <-; reflexivity|reflexivity|lia|lia|];
  vm_compute in X; injection X as <- <-; tac H Hp.

(** 2048 s instead of 1024 s *)
Theorem C46_refuted : ~ C46_claim (fun p => p = 3).
Proof. intro C. run_clock C 3 ltac:(fun H Hp => vm_compute in H; injection H as <- <- <-; vm_compute in Hp; discriminate). Qed.
Print Assumptions C46_refuted.
(** undefined *)
Theorem C46_overflow_refuted : ~ C46_claim (fun p => p = 6).
Proof. intro C. run_clock C 6 ltac:(fun H Hp => vm_compute in H; discriminate). Qed.
Print Assumptions C46_overflow_refuted.

(** true up to 512 s; what the application is told for the ids 3, 4, 5 is 2048, 32768,
    8388608 s, and the larger ids are undefined behaviour *)
Theorem C46_partial : C46_claim (fun p => p <= 2).
Proof.
  intros E ops tr w p c HE Hws Hx Hc Hper Hp Hp2. assert (Hr : reachable E w) by (exists ops, tr; auto).
  pose proof (reach_Inv E w HE Hr) as HI. destruct (cs_exec E ops tr w HE Hws Hx) as (R1 & _). rewrite Hc in R1.
  destruct (C44_wellformed E ops tr w [QPeriod p] [] c HE Hws Hx Hc) as (es & w' & H & _).
  - repeat constructor; cbn; lia.
  - repeat constructor; cbn; tauto.
  - discriminate.
  - constructor.
  - cbn. rewrite Hper. lia.
  - cbn [flat_map cs_encode app len length] in H. exists VUnit, es, w'. split; [exact H|].
    destruct (step_cs_msg E w (OCsHandle ERR_NO (Some [2; p]) 2 CLOCK_PORT) VUnit es w' 2 [2; p] c HE HI ltac:(cbn [op_wf]; unfold is_u8, bytes_ok, is_byte, CLOCK_PORT; split; [lia|]; split; [lia|]; split; [repeat constructor; lia|cbn; lia]) eq_refl R1 H) as (_ & _ & _ & -> & _).
    rewrite run_periods. cbn [cs_start ca_evs periods flat_map app]. rewrite Hper.
    assert (Ex : executed E true 2 [2; p] = [QPeriod p]).
    { unfold executed. change (msg_of 2 [2; p]) with [2; p]. change (post_of 2 [2; p]) with (@nil Z).
      assert (p = 0 \/ p = 1 \/ p = 2) as [-> | [-> | ->]] by lia; destruct (e_strict_shl E); reflexivity. }
    rewrite Ex. cbn [period_ids flat_map app map]. f_equal. unfold period_code. assert (p = 0 \/ p = 1 \/ p = 2) as [-> | [-> | ->]] by lia; reflexivity.
Qed.
Print Assumptions C46_partial.

(** ids are reported exactly so, whatever else is in the message *)
Theorem C46_reported_partial : forall E ops tr w o v es w' size l c,
  env_ok E -> Forall op_wf ops -> exec E world0 ops tr w -> op_wf o -> cs_msg o = Some (size, l) ->
  cv_cbs (cs_seen E tr) = Some c -> step E w o = Some (v, es, w') ->
  periods es = (if has_periodicity c then map (fun p => 128 * if p =? 0 then 1 else 2 ^ 2 ^ (p - 1)) (period_ids (executed E (has_periodicity c) size l)) else []).
Proof.
  intros E ops tr w o v es w' size l c HE Hws Hx Hw Hm Hc H. assert (Hr : reachable E w) by (exists ops, tr; auto).
  pose proof (reach_Inv E w HE Hr) as HI. destruct (cs_exec E ops tr w HE Hws Hx) as (R1 & _). rewrite Hc in R1.
  destruct (step_cs_msg E w o v es w' size l c HE HI Hw Hm R1 H) as (_ & _ & _ & -> & _). rewrite run_periods. reflexivity.
Qed.
Print Assumptions C46_reported_partial.
Example C46_case : case_of (demo [] []) clock_on (clock_msg [2; 2]) (fun w v es w' => list_eqb (periods es) [512]).
Proof. show_case. Qed.

(** ** C60 Clock sync: forced resynchronisation *)
Theorem C60_resync : forall E ops tr w o v es w' size l c,
  env_ok E -> Forall op_wf ops -> exec E world0 ops tr w -> op_wf o -> cs_msg o = Some (size, l) ->
  cv_cbs (cs_seen E tr) = Some c -> step E w o = Some (v, es, w') ->
  length (resyncs es) = length (filter (fun q => match q with QResync n => negb (n =? 0) | _ => false end) (executed E (has_periodicity c) size l)) /\
  (length (resyncs es) <= 1)%nat.
Proof.
  intros E ops tr w o v es w' size l c HE Hws Hx Hw Hm Hc H. assert (Hr : reachable E w) by (exists ops, tr; auto).
  pose proof (reach_Inv E w HE Hr) as HI. destruct (cs_exec E ops tr w HE Hws Hx) as (R1 & _). rewrite Hc in R1.
  destruct (step_cs_msg E w o v es w' size l c HE HI Hw Hm R1 H) as (_ & Hn & _ & -> & _). rewrite run_resyncs. cbn [cs_start ca_evs resyncs flat_map app].
  set (qs := executed E (has_periodicity c) size l) in *. clearbody qs. clear - Hn.
  assert (L : forall rs, length (flat_map (fun n => if n =? 0 then [] else [tt]) (resync_nums rs)) =
    length (filter (fun q => match q with QResync n => negb (n =? 0) | _ => false end) rs)).
  { induction rs as [|q qs' IH]; [reflexivity|]. destruct q; cbn [resync_nums flat_map app filter]; try exact IH.
    fold (resync_nums qs'). destruct (n =? 0); cbn [negb app length]; rewrite <- IH; reflexivity. }
  split; [apply L|]. rewrite L. clear L. induction qs as [|q qs IH]; [cbn; lia|]. cbn [map] in Hn. apply NoDup_cons_iff in Hn. destruct Hn as [Hi Hn]. specialize (IH Hn).
  cbn [filter]. destruct q; try exact IH. destruct (n =? 0); cbn [negb length]; [exact IH|].
  assert (filter (fun q => match q with QResync n => negb (n =? 0) | _ => false end) qs = []) as ->; [|cbn; lia].
  clear - Hi. induction qs as [|q qs IH]; [reflexivity|]. cbn [map In] in Hi. cbn [filter]. destruct q; try (apply IH; tauto). exfalso. apply Hi. left. reflexivity.
Qed.
Print Assumptions C60_resync.
(** nothing else asks for one *)
Theorem C60_only : forall E ops tr w o v es w',
  env_ok E -> Forall op_wf ops -> exec E world0 ops tr w -> op_wf o -> step E w o = Some (v, es, w') ->
  resyncs es <> [] -> cs_msg o <> None /\ cv_cbs (cs_seen E tr) <> None.
Proof.
  intros E ops tr w o v es w' HE Hws Hx Hw H Hc. assert (Hr : reachable E w) by (exists ops, tr; auto).
  pose proof (reach_Inv E w HE Hr) as HI. destruct (cs_exec E ops tr w HE Hws Hx) as (R1 & _).
  destruct (step_nocs E w o v es w' HE HI Hw H) as [(e & b & n & p & ->)|[(a & ->)|N]].
  - rewrite <- R1. split; intro X; apply Hc; (destruct (cs_no_msg E w e b n p v es w' HE HI Hw H) as (-> & _); [auto|reflexivity]).
  - exfalso. apply Hc. destruct (step_cs_req E w a v es w' HE HI H) as (e & -> & [(_ & _ & -> & _)|(_ & es1 & -> & Hs)]); [reflexivity|].
    apply send_nocs, nocs_corr in Hs. apply Hs.
  - exfalso. apply Hc. apply nocs_corr in N. apply N.
Qed.
Print Assumptions C60_only.
Example C60_case : case_of (demo [] []) clock_on (clock_msg [3; 9]) (fun w v es w' => (length (resyncs es) =? 1)%nat).
Proof. show_case. Qed.
Example C60_zero_case : case_of (demo [] []) clock_on (clock_msg [3; 8; 3; 1]) (fun w v es w' => (length (resyncs es) =? 0)%nat).
Proof. show_case. Qed.
