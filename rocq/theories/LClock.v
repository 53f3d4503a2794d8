(** LClock.v -- clock synchronisation along executions. *)
From Verif Require Export PClock3.
Import ListNotations.

Lemma app_at (l : list Z) size : msg_of size l ++ post_of size l = l.
Proof. apply firstn_skipn. Qed.

(** the outcome for every message *)
Lemma cs_handle_all E c l size h s : env_ok E -> Inv s -> cs_callbacks (s_cs s) = Some c ->
  bytes_ok l -> 0 < size <= 255 -> size <= len l ->
  uwan_clock_sync_handle_time_answ E ERR_NO (Some l) size CS_PORT h s =
    match cs_scan (e_strict_shl E) (has_periodicity c) (post_of size l) [] (msg_of size l) with
    | inl reqs => let a := cs_run E c h reqs (cs_start s) in Ok (tt, cs_done s a, ca_evs a)
    | inr k => Undef k
    end /\
  (forall reqs, cs_scan (e_strict_shl E) (has_periodicity c) (post_of size l) [] (msg_of size l) = inl reqs ->
     len (ca_ans (cs_run E c h reqs (cs_start s))) <= 9).
Proof.
  intros HE HI Hc Hb Hz Hl. assert (Hm : bytes_ok (msg_of size l)) by (apply bytes_firstn; exact Hb).
  assert (Hp : bytes_ok (post_of size l)) by (apply bytes_skipn; exact Hb).
  assert (Hlm : len (msg_of size l) = size) by (unfold msg_of, len in *; rewrite firstn_length; lia).
  destruct (iv_cs _ HI) as [X1 X2 X3 X4 X5].
  pose proof (cs_loop_all E c (ans_buf (s_cs s)) (cs_cleared s) h (post_of size l) HE X1 Hp
    (length (msg_of size l)) (msg_of size l) 600 [] 0 [] (cs_start s)) as K.
  specialize (K ltac:(lia)). specialize (K ltac:(unfold len in Hlm; lia) Hm ltac:(change (len []) with 0; lia)).
  specialize (K ltac:(split; [unfold is_byte; lia|]; split; [intros; apply Z.bits_0|intros ? []])).
  specialize (K ltac:(exists [], []; repeat split; constructor)).
  specialize (K ltac:(change (len (ca_ans (cs_start s))) with 0; cbn; lia)).
  change (ca_evs (cs_start s)) with (@nil ev) in K. rewrite app_nil_r in K. cbn [app] in K.
  change (len []) with 0 in K. rewrite !Z.add_0_l in K. rewrite app_at, Hlm in K.
  assert (Hst : cs_state (ans_buf (s_cs s)) (cs_start s) (cs_cleared s) = cs_cleared s).
  { unfold cs_state, cs_start. cbn [ca_ans ca_tok ca_rep]. rewrite over_nil. destruct s as [? ? ? ? ? []]. reflexivity. }
  rewrite Hst in K. change (len (ca_ans (cs_start s))) with 0 in K.
  assert (U : uwan_clock_sync_handle_time_answ E ERR_NO (Some l) size CS_PORT h s =
    bind (cs_loop E 600 c (Some l) size 0 0 0) (fun aoff => mod_cs (set_ans_buf_data_size aoff) ;;; mod_cs (set_ans_pending (negb (aoff =? 0))))
      h (cs_cleared s)).
  { unfold uwan_clock_sync_handle_time_answ. cbn [is_ERR_NO negb]. msteps.
    change (on_cs (set_ans_pending false) (on_cs (set_app_time_req_pending false) s)) with (cs_cleared s).
    replace (size =? 0) with false by lia. cbn [negb]. rewrite Z.eqb_refl. cbn [andb].
    unfold handle_answ. msteps. change (cs_callbacks (s_cs (cs_cleared s))) with (cs_callbacks (s_cs s)). rewrite Hc. reflexivity. }
  rewrite U. destruct (cs_scan _ _ _ _ _) as [reqs|k].
  - destruct K as (es & E1 & E2 & E3). subst es. split.
    + erewrite bind_ok; [|exact E3]. msteps. unfold mod_cs, modify, addev. rewrite app_nil_r. cbv zeta. reflexivity.
    + intros r Hr. injection Hr as <-. exact E2.
  - split; [apply bind_undef; exact K|discriminate].
Qed.

(** ** Requests in closed form *)
Lemma corrections_app a b : corrections (a ++ b) = corrections a ++ corrections b.
Proof. apply flat_map_app. Qed.
Lemma periods_app a b : periods (a ++ b) = periods a ++ periods b.
Proof. apply flat_map_app. Qed.
Lemma readings_app a b : readings (a ++ b) = readings a ++ readings b.
Proof. apply flat_map_app. Qed.
Lemma resyncs_app a b : resyncs (a ++ b) = resyncs a ++ resyncs b.
Proof. apply flat_map_app. Qed.

Lemma scan_cons_inl q r qs : scan_cons q r = inl qs -> exists l, r = inl l /\ qs = q :: l.
Proof. destruct r; cbn; [|discriminate]. intro H. injection H as <-. eauto. Qed.

Lemma scan_kinds strict per post : forall n msg seen qs, (length msg <= n)%nat -> bytes_ok msg -> cs_scan strict per post seen msg = inl qs ->
  NoDup (map cs_kind qs) /\ forall q, In q qs -> ~ In (cs_kind q) seen.
Proof.
  assert (Hin : forall c seen, existsb (Z.eqb c) seen = false -> ~ In c seen).
  { intros c seen H X. assert (existsb (Z.eqb c) seen = true) by (apply existsb_exists; exists c; split; [exact X|apply Z.eqb_refl]). congruence. }
  assert (Nil : forall (seen : list Z), NoDup (map cs_kind []) /\ forall q, In q [] -> ~ In (cs_kind q) seen)
    by (intro; split; [constructor|intros ? []]).
  assert (Cons : forall q seen (l : list cs_req), ~ In (cs_kind q) seen -> NoDup (map cs_kind l) -> (forall x, In x l -> ~ In (cs_kind x) (cs_kind q :: seen)) ->
     NoDup (map cs_kind (q :: l)) /\ forall x, In x (q :: l) -> ~ In (cs_kind x) seen).
  { intros q seen l A B C. split.
    - cbn [map]. constructor; [|exact B]. intro X. apply in_map_iff in X. destruct X as (x & X1 & X2). apply (C x X2). left. symmetry. exact X1.
    - intros x [<-|X]; [exact A|]. intro Y. apply (C x X). right. exact Y. }
  induction n as [|n IH]; intros [|c rest] seen qs Hn Hb H; cbn [length] in Hn.
  1, 3: injection H as <-; apply Nil.
  1: lia.
  assert (Hr : bytes_ok rest) by (inversion Hb; assumption). assert (Hc : is_byte c) by (inversion Hb; assumption).
  cbn [cs_scan] in H. destruct (_ || _); [discriminate|].
  destruct (existsb (Z.eqb c) seen) eqn:Es; [injection H as <-; apply Nil|]. apply Hin in Es.
  set (seen' := if c <? 8 then c :: seen else seen) in *.
  assert (Sub : forall x, In x seen -> In x seen') by (intros x X; unfold seen'; destruct (c <? 8); [right|]; exact X).
  assert (Tail : forall l qs0, (length l <= n)%nat -> bytes_ok l -> cs_scan strict per post seen' l = inl qs0 ->
    NoDup (map cs_kind qs0) /\ forall q, In q qs0 -> ~ In (cs_kind q) seen).
  { intros l qs0 A B C. destruct (IH l seen' qs0 A B C) as (D & F). split; [exact D|]. intros q Hq X. apply (F q Hq). auto. }
  assert (Step : forall q l qs0, c = cs_kind q -> (length l <= n)%nat -> bytes_ok l -> cs_scan strict per post seen' l = inl qs0 ->
    NoDup (map cs_kind (q :: qs0)) /\ forall x, In x (q :: qs0) -> ~ In (cs_kind x) seen).
  { intros q l qs0 A B C D. destruct (IH l seen' qs0 B C D) as (F & G). apply Cons; [rewrite <- A; exact Es|exact F|].
    intros x Hx. specialize (G x Hx). unfold seen' in G. assert (c <? 8 = true) by (rewrite A; destruct q; reflexivity).
    rewrite H0 in G. rewrite <- A. exact G. }
  destruct (Z.eqb_spec c 0) as [C0|C0].
  { apply scan_cons_inl in H. destruct H as (l & H & ->). apply (Step QVersion rest l); auto; lia. }
  destruct (Z.eqb_spec c 1) as [C1|C1].
  { assert (Hx : (exists b0 b1 b2 b3 b4 rest', rest = b0 :: b1 :: b2 :: b3 :: b4 :: rest' /\
        (if strict && (128 <=? b3) then inr UB_shift else
            scan_cons (QAnswer (signed32 (unle [b0; b1; b2; b3])) (b4 mod 16)) (cs_scan strict per post seen' rest')) = inl qs) \/
        cs_scan strict per post seen' rest = inl qs).
    { destruct rest as [|b0 [|b1 [|b2 [|b3 [|b4 rest']]]]]; auto. left. repeat eexists. exact H. }
    destruct Hx as [(b0 & b1 & b2 & b3 & b4 & rest' & -> & Hx)|Hx].
    - destruct (strict && _); [discriminate|]. apply scan_cons_inl in Hx. destruct Hx as (l & Hx & ->). cbn [length] in Hn.
      apply (Step (QAnswer _ _) rest' l); [exact C1|lia| |exact Hx].
      repeat match goal with H : bytes_ok (_ :: _) |- _ => inversion H; subst; clear H end.
      repeat match goal with H : Forall _ (_ :: _) |- _ => inversion H; subst; clear H end. assumption.
    - apply (Tail rest); [lia|exact Hr|exact Hx]. }
  destruct (Z.eqb_spec c 2) as [C2|C2].
  { destruct rest as [|p rest']; [injection H as <-; apply Nil|]. destruct (per && _); [discriminate|].
    apply scan_cons_inl in H. destruct H as (l & H & ->). cbn [length] in Hn. apply (Step (QPeriod p) rest' l); [exact C2|lia| |exact H].
    inversion Hr; assumption. }
  destruct (Z.eqb_spec c 3) as [C3|C3].
  { destruct rest as [|p rest'].
    - destruct post as [|b post']; [discriminate|]. injection H as <-. split; [repeat constructor; intros []|].
      intros q [<-|[]]. cbn [cs_kind]. rewrite <- C3. exact Es.
    - apply scan_cons_inl in H. destruct H as (l & H & ->). cbn [length] in Hn. apply (Step (QResync _) rest' l); [exact C3|lia| |exact H].
      inversion Hr; assumption. }
  apply (Tail rest); [lia|exact Hr|exact H].
Qed.

Lemma nodup_cons q qs : NoDup (map cs_kind (q :: qs)) -> NoDup (map cs_kind qs) /\ forall x, In x qs -> cs_kind x <> cs_kind q.
Proof.
  cbn [map]. intro H. inversion H; subst. split; [assumption|]. intros x Hx Y. apply H2. rewrite <- Y. apply in_map. exact Hx.
Qed.
(** running requests of distinct kinds *)
Lemma run_absent E c h : forall qs a, (forall q, In q qs -> cs_kind q <> 2) ->
  (forall t, ca_ans (cs_run E c h qs a) = ca_ans a ++ flat_map (cs_answer_to (has_periodicity c) t) qs) /\
  readings (ca_evs (cs_run E c h qs a)) = readings (ca_evs a) /\ periods (ca_evs (cs_run E c h qs a)) = periods (ca_evs a).
Proof.
  induction qs as [|q qs IH]; intros a H.
  - cbn. split; [intro; rewrite app_nil_r; reflexivity|auto].
  - destruct (IH (cs_do E c h q a)) as (A & B & C); [intros; apply H; right; assumption|]. cbn [cs_run].
    split; [intro t; rewrite (A t); cbn [flat_map]|rewrite B, C]; destruct q; cbn [cs_do]; try (exfalso; apply (H (QPeriod id)); [left|]; reflexivity).
    + cbn [ca_ans]. rewrite <- app_assoc. reflexivity.
    + destruct (_ =? _); reflexivity.
    + reflexivity.
    + split; reflexivity.
    + destruct (_ =? _); cbn [ca_evs]; [rewrite readings_app, periods_app; cbn; rewrite !app_nil_r|]; split; reflexivity.
    + destruct (_ =? _); cbn [ca_evs]; [|rewrite readings_app, periods_app; cbn; rewrite !app_nil_r]; split; reflexivity.
Qed.
Definition period_ids (qs : list cs_req) : list Z := flat_map (fun q => match q with QPeriod p => [p] | _ => [] end) qs.
Definition resync_nums (qs : list cs_req) : list Z := flat_map (fun q => match q with QResync n => [n] | _ => [] end) qs.
Lemma run_answers E c h : forall qs a, NoDup (map cs_kind qs) -> readings (ca_evs a) = [] ->
  ca_ans (cs_run E c h qs a) =
    ca_ans a ++ flat_map (cs_answer_to (has_periodicity c) (hd 0 (readings (ca_evs (cs_run E c h qs a))))) qs.
Proof.
  induction qs as [|q qs IH]; intros a Hn Hr.
  - cbn. rewrite app_nil_r. reflexivity.
  - apply nodup_cons in Hn. destruct Hn as (Hn & Hk). cbn [cs_run flat_map].
    destruct q.
    + rewrite IH by assumption. cbn [cs_do ca_ans]. rewrite <- app_assoc. reflexivity.
    + assert (Q : readings (ca_evs (cs_do E c h (QAnswer corr token) a)) = [] /\ ca_ans (cs_do E c h (QAnswer corr token) a) = ca_ans a).
      { cbn [cs_do]. destruct (_ =? _); cbn [ca_evs ca_ans]; [rewrite readings_app, Hr|]; auto. }
      destruct Q as (Q1 & Q2). rewrite IH by assumption. rewrite Q2. reflexivity.
    + destruct (run_absent E c h qs (cs_do E c h (QPeriod id) a)) as (A & B & _); [intros x Hx; apply (Hk x Hx)|].
      rewrite B. set (t := hd 0 _). rewrite (A t). cbn [cs_do ca_ans]. rewrite <- app_assoc. cbn [cs_answer_to]. do 2 f_equal.
      unfold t. cbn [cs_do ca_evs]. destruct (has_periodicity c); rewrite !readings_app; rewrite ?Hr; reflexivity.
    + assert (Q : readings (ca_evs (cs_do E c h (QResync n) a)) = [] /\ ca_ans (cs_do E c h (QResync n) a) = ca_ans a).
      { cbn [cs_do]. destruct (_ =? _); cbn [ca_evs ca_ans]; [|rewrite readings_app, Hr]; auto. }
      destruct Q as (Q1 & Q2). rewrite IH by assumption. rewrite Q2. reflexivity.
Qed.
Lemma run_tokens E c h : forall qs a, NoDup (map cs_kind qs) ->
  corrections (ca_evs (cs_run E c h qs a)) = corrections (ca_evs a) ++ carried (ca_tok a) qs /\
  (0 <= ca_tok a < 16 -> ca_tok (cs_run E c h qs a) = (ca_tok a + len (carried (ca_tok a) qs)) mod 16).
Proof.
  assert (No : forall qs a, (forall q, In q qs -> cs_kind q <> 1) ->
    corrections (ca_evs (cs_run E c h qs a)) = corrections (ca_evs a) /\ ca_tok (cs_run E c h qs a) = ca_tok a /\ forall k, carried k qs = []).
  { induction qs as [|q qs IH]; intros a H; [repeat split|].
    destruct (IH (cs_do E c h q a)) as (A & B & C); [intros; apply H; right; assumption|]. cbn [cs_run]. rewrite A, B.
    destruct q; try (exfalso; apply (H (QAnswer corr token)); [left|]; reflexivity).
    - repeat split; auto.
    - split; [|split; [reflexivity|exact C]]. cbn [cs_do ca_evs]. destruct (has_periodicity c); rewrite !corrections_app; cbn; rewrite !app_nil_r; reflexivity.
    - split; [|split; [reflexivity|exact C]]. cbn [cs_do ca_evs]. destruct (_ =? _); rewrite ?corrections_app; cbn; rewrite ?app_nil_r; reflexivity. }
  induction qs as [|q qs IH]; intros a Hn.
  - cbn. rewrite app_nil_r. split; [reflexivity|]. intro. rewrite Z.add_0_r. symmetry. apply Z.mod_small. assumption.
  - apply nodup_cons in Hn. destruct Hn as (Hn & Hk). cbn [cs_run].
    assert (Other : cs_kind q <> 1 -> corrections (ca_evs (cs_do E c h q a)) = corrections (ca_evs a) /\ ca_tok (cs_do E c h q a) = ca_tok a /\
      forall k, carried k (q :: qs) = carried k qs).
    { intro Hq. destruct (No [q] a) as (A & B & C); [intros x [<-|[]]; exact Hq|]. split; [exact A|]. split; [exact B|].
      intro k. specialize (C k). unfold carried in *. cbn [flat_map] in *. rewrite app_nil_r in C. rewrite C. reflexivity. }
    destruct (IH (cs_do E c h q a) Hn) as (A & B).
    destruct (Z.eq_dec (cs_kind q) 1) as [Q|Q].
    2: { destruct (Other Q) as (O1 & O2 & O3). rewrite O1, O2 in A. rewrite O2 in B. rewrite O3. auto. }
    destruct (No qs (cs_do E c h q a)) as (N1 & N2 & N3); [intros x Hx; rewrite <- Q; apply (Hk x Hx)|]. rewrite N1, N2.
    destruct q; try discriminate. cbn [cs_do]. assert (C0 : carried (ca_tok a) (QAnswer corr token :: qs) = if token =? ca_tok a then [corr] else []).
    { unfold carried in *. cbn [flat_map]. rewrite (N3 (ca_tok a)), app_nil_r. reflexivity. }
    rewrite C0. destruct (_ =? _); cbn [ca_evs ca_tok]; [rewrite corrections_app|rewrite app_nil_r]; split; try reflexivity.
    intro. change (len []) with 0. rewrite Z.add_0_r. symmetry. apply Z.mod_small. assumption.
Qed.
Lemma run_periods E c h : forall qs a,
  periods (ca_evs (cs_run E c h qs a)) = periods (ca_evs a) ++ (if has_periodicity c then map period_code (period_ids qs) else []).
Proof.
  induction qs as [|q qs IH]; intro a; cbn [cs_run].
  - cbn. destruct (has_periodicity c); rewrite app_nil_r; reflexivity.
  - rewrite IH. destruct q; try reflexivity.
    + cbn [cs_do]. destruct (_ =? _); cbn [ca_evs]; rewrite ?periods_app; cbn; rewrite ?app_nil_r; reflexivity.
    + cbn [cs_do ca_evs]. destruct (has_periodicity c); rewrite !periods_app; cbn; rewrite ?app_nil_r, <- ?app_assoc; reflexivity.
    + cbn [cs_do ca_evs]. destruct (_ =? _); rewrite ?periods_app; cbn; rewrite ?app_nil_r; reflexivity.
Qed.
Lemma run_resyncs E c h : forall qs a,
  resyncs (ca_evs (cs_run E c h qs a)) = resyncs (ca_evs a) ++ flat_map (fun n => if n =? 0 then [] else [tt]) (resync_nums qs).
Proof.
  induction qs as [|q qs IH]; intro a; cbn [cs_run].
  - cbn. rewrite app_nil_r; reflexivity.
  - rewrite IH. destruct q; try reflexivity.
    + cbn [cs_do]. destruct (_ =? _); cbn [ca_evs]; rewrite ?resyncs_app; cbn; rewrite ?app_nil_r; reflexivity.
    + cbn [cs_do ca_evs]. destruct (has_periodicity c); rewrite !resyncs_app; cbn; rewrite ?app_nil_r, <- ?app_assoc; reflexivity.
    + cbn [cs_do ca_evs resync_nums flat_map app]. fold (resync_nums qs). destruct (_ =? _); rewrite ?resyncs_app; cbn; rewrite ?app_nil_r, <- ?app_assoc; reflexivity.
Qed.

(** ** One call *)
Lemma cs_msg_call E o size l h s : op_wf o -> cs_msg o = Some (size, l) ->
  call E o h s = as_unit (uwan_clock_sync_handle_time_answ E ERR_NO (Some l) size CS_PORT) h s /\ bytes_ok l /\ 0 < size <= 255 /\ size <= len l.
Proof.
  unfold cs_msg. destruct o; try discriminate. destruct e; try discriminate. destruct buf as [l0|]; [|discriminate].
  destruct (negb (size0 =? 0) && (port =? CLOCK_PORT)) eqn:Q; [|discriminate]. intros (W1 & W2 & W3 & W4) H. injection H as <- <-.
  unfold CLOCK_PORT in Q. unfold is_u8 in *. assert (port = CS_PORT) by (unfold CS_PORT; lia). subst port. split; [reflexivity|]. split; [exact W3|]. lia.
Qed.
Lemma step_cs_msg E w o v es w' size l c : env_ok E -> Inv (w_st w) -> op_wf o -> cs_msg o = Some (size, l) ->
  cs_callbacks (s_cs (w_st w)) = Some c -> step E w o = Some (v, es, w') ->
  let reqs := executed E (has_periodicity c) size l in
  let a := cs_run E c (w_hist w) reqs (cs_start (w_st w)) in
  cs_scan (e_strict_shl E) (has_periodicity c) (post_of size l) [] (msg_of size l) = inl reqs /\ NoDup (map cs_kind reqs) /\
  w_st w' = cs_done (w_st w) a /\ es = ca_evs a /\ len (ca_ans a) <= 9.
Proof.
  intros HE HI Hw Hm Hc H. apply step_call in H. destruct H as [H _].
  destruct (cs_msg_call E o size l (w_hist w) (w_st w) Hw Hm) as (Q & Hb & Hz & Hl). rewrite Q in H. clear Q.
  apply as_unit_inv in H. destruct H as (_ & H). destruct (cs_handle_all E c l size (w_hist w) (w_st w) HE HI Hc Hb Hz Hl) as (K & K9).
  rewrite K in H. clear K. unfold executed. destruct (cs_scan _ _ _ _ _) as [reqs|k] eqn:Sc; [|discriminate]. cbv zeta in *. injection H as <- <-.
  split; [reflexivity|]. split; [apply (scan_kinds _ _ _ _ _ _ _ (le_n _) ltac:(apply bytes_firstn; exact Hb) Sc)|].
  split; [reflexivity|]. split; [reflexivity|]. apply K9. reflexivity.
Qed.
Lemma cs_no_msg E w e b n p v es w' : env_ok E -> Inv (w_st w) -> op_wf (OCsHandle e b n p) ->
  step E w (OCsHandle e b n p) = Some (v, es, w') -> cs_msg (OCsHandle e b n p) = None \/ cs_callbacks (s_cs (w_st w)) = None ->
  es = [] /\ w_st w' = (match e with ERR_NO => cs_cleared (w_st w) | _ => w_st w end).
Proof.
  intros HE HI Hw H Hm. apply step_call in H. destruct H as [H _]. cbn [call] in H. apply as_unit_inv in H. destruct H as (_ & H).
  destruct Hw as (W1 & W2 & W3). unfold is_u8 in *.
  unfold uwan_clock_sync_handle_time_answ in H. destruct e; cbn [is_ERR_NO negb] in H; try (injection H as <- <-; split; reflexivity).
  revert H. msteps. change (on_cs (set_ans_pending false) (on_cs (set_app_time_req_pending false) (w_st w))) with (cs_cleared (w_st w)).
  destruct (negb (n =? 0) && (p =? CS_PORT)) eqn:Q.
  2: { intro H. injection H as <- <-. split; reflexivity. }
  destruct b as [l|]; [|lia].
  unfold handle_answ. msteps. change (cs_callbacks (s_cs (cs_cleared (w_st w)))) with (cs_callbacks (s_cs (w_st w))).
  destruct Hm as [Hm|Hm].
  - unfold cs_msg in Hm. change CLOCK_PORT with CS_PORT in Hm. rewrite Q in Hm. discriminate.
  - rewrite Hm. intro H. injection H as <- <-. split; reflexivity.
Qed.

(** ** Executions *)
Definition cs_rep (s : st) (v : cs_view) : Prop :=
  cs_callbacks (s_cs s) = cv_cbs v /\ state_token_req (s_cs s) = cv_tok v /\
  ans_pending (s_cs s) = negb (len (cv_ans v) =? 0) /\ (ans_pending (s_cs s) = true -> cs_answer s = cv_ans v).
Lemma cs_rep_same s s' v : cs_callbacks (s_cs s') = cs_callbacks (s_cs s) -> state_token_req (s_cs s') = state_token_req (s_cs s) ->
  ans_pending (s_cs s') = ans_pending (s_cs s) -> ans_buf (s_cs s') = ans_buf (s_cs s) -> ans_buf_data_size (s_cs s') = ans_buf_data_size (s_cs s) ->
  cs_rep s v -> cs_rep s' v.
Proof. intros A B C D F (G1 & G2 & G3 & G4). unfold cs_rep, cs_answer in *. rewrite A, B, C, D, F. auto. Qed.
Lemma cs_rep_eq s s' v : s_cs s' = s_cs s -> cs_rep s v -> cs_rep s' v.
Proof. intros H. apply cs_rep_same; rewrite H; reflexivity. Qed.

Lemma send_rep E p d c h s e s' es v : send_cases E p d c h s (Ok (e, s', es)) -> cs_rep s v -> cs_rep s' v.
Proof. intro H. inv_ok H; intro R; exact R. Qed.
Lemma join_rep E h s e s' es v : join_cases E h s (Ok (e, s', es)) -> cs_rep s v -> cs_rep s' v.
Proof. intro H. inv_ok H; intro R; exact R. Qed.
Lemma cs_step E w o v es w' vw : env_ok E -> Inv (w_st w) -> op_wf o -> step E w o = Some (v, es, w') ->
  cs_rep (w_st w) vw -> cs_rep (w_st w') (cs_see E vw (o, v, es)).
Proof.
  intros HE HI Hw H R. pose proof (step_inv E w o v es w' HE HI Hw H) as Q. remember (w_st w') as s' eqn:Es.
  destruct Q as [o v s1 A|r|e s1 es1 A|p d c e s1 es1 A|t|m s1 es1 A|e b n p es1 s1 A B C|a e A B|a e s1 es1 A B|e A B|e s1 es1 A B].
  - destruct o; cbn [simple] in A; try discriminate; cbn [cs_see];
      repeat match type of A with context [if ?b then _ else _] => destruct b end; injection A as <- <-;
      try (apply (cs_rep_eq (w_st w)); [reflexivity|exact R]).
    repeat split; intro X; discriminate X.
  - apply (cs_rep_eq (w_st w)); [reflexivity|exact R].
  - apply (join_rep _ _ _ _ _ _ vw A R).
  - apply (send_rep _ _ _ _ _ _ _ _ _ _ A R).
  - exact R.
  - apply (cs_rep_eq (w_st w)); [|exact R]. exact (if_cs _ _ (irq_fr (relax E) m (w_hist w) (w_st w) s1 es1 (relax_ok E HE) eq_refl HI A)).
  - subst s1. destruct (cs_msg (OCsHandle e b n p)) as [[size l]|] eqn:Em.
    2: { destruct (cs_no_msg E w e b n p _ _ w' HE HI Hw H (or_introl Em)) as (-> & K). rewrite K. clear K. cbn [cs_see].
         destruct e; try exact R. rewrite Em. destruct R as (R1 & R2 & R3 & R4). destruct (iv_cs _ HI) as [X1 X2 X3 X4 X5].
         split; [exact R1|]. split; [cbn; rewrite Z.add_0_r; cbn in R2; rewrite <- R2; symmetry; apply Z.mod_small; exact X4|].
         destruct (cv_cbs vw); (split; [reflexivity|]); intro X; discriminate X. }
    destruct (cs_callbacks (s_cs (w_st w))) as [c|] eqn:Ec.
    2: { destruct (cs_no_msg E w e b n p _ _ w' HE HI Hw H (or_intror Ec)) as (-> & K). rewrite K. clear K. cbn [cs_see].
         destruct e; try exact R. rewrite Em. destruct R as (R1 & R2 & R3 & R4). destruct (iv_cs _ HI) as [X1 X2 X3 X4 X5].
         rewrite <- R1, Ec. split; [exact Ec|]. split; [cbn; rewrite Z.add_0_r; cbn in R2; rewrite <- R2; symmetry; apply Z.mod_small; exact X4|].
         split; [reflexivity|]. intro X; discriminate X. }
    destruct (step_cs_msg E w _ _ _ w' size l c HE HI Hw Em Ec H) as (S1 & S2 & S3 & S4 & S5). rewrite S3. clear S3.
    destruct R as (R1 & R2 & R3 & R4). destruct (iv_cs _ HI) as [X1 X2 X3 X4 X5].
    assert (He : e = ERR_NO) by (unfold cs_msg in Em; destruct e; (reflexivity || discriminate)). subst e.
    set (reqs := executed E (has_periodicity c) size l) in *. set (a := cs_run E c (w_hist w) reqs (cs_start (w_st w))) in *.
    cbn [cs_see]. rewrite <- R1, Ec, Em. fold reqs.
    pose proof (run_answers E c (w_hist w) reqs (cs_start (w_st w)) S2 eq_refl) as Ra. fold a in Ra. rewrite <- S4 in Ra. cbn [cs_start ca_ans app] in Ra.
    destruct (run_tokens E c (w_hist w) reqs (cs_start (w_st w)) S2) as (T1 & T2). fold a in T1, T2. rewrite <- S4 in T1. cbn [cs_start ca_evs corrections flat_map app ca_tok] in T1, T2.
    change (corrections es1) with (flat_map (fun e => match e with KCorrection c => [c] | _ => [] end) es1) in T1.
    split; [exact Ec|]. split; [|split].
    + cbn [cv_tok]. rewrite <- R2. unfold corrections. rewrite T1. cbn. apply T2. exact X4.
    + cbn [cv_ans]. rewrite <- Ra. reflexivity.
    + intros _. cbn [cv_ans]. rewrite <- Ra. unfold cs_answer. cbn -[over]. unfold over, len. rewrite Nat2Z.id.
      rewrite firstn_app, Nat.sub_diag, firstn_all. cbn. apply app_nil_r.
  - exact R.
  - cbn [cs_see]. apply (send_rep _ _ _ _ _ _ _ _ _ vw B). apply (cs_rep_same (w_st w)); try reflexivity. exact R.
  - exact R.
  - apply (send_rep _ _ _ _ _ _ _ _ _ vw B R).
Qed.
Lemma cs_exec E ops tr w : env_ok E -> Forall op_wf ops -> exec E world0 ops tr w -> cs_rep (w_st w) (cs_seen E tr).
Proof.
  intro HE. revert ops tr w. apply (exec_snoc_ind E (fun tr w => cs_rep (w_st w) (cs_seen E tr)) HE).
  - repeat split; intro X; discriminate X.
  - intros ops tr w o v es w' _ _ HI _ R Hw H. unfold cs_seen. rewrite fold_left_app. cbn [fold_left]. apply (cs_step E w); assumption.
Qed.

(** ** Well-formed messages *)
Lemma signed32_enc c : -2147483648 <= c < 2147483648 -> signed32 (c mod 4294967296) = c.
Proof.
  intro H. unfold signed32. destruct (Z_lt_ge_dec c 0).
  - replace (c mod 4294967296) with (c + 4294967296) by (rewrite <- (Z.mod_small (c + 4294967296) 4294967296) by lia; rewrite <- Z.add_mod_idemp_r by lia; rewrite Z.mod_same by lia; rewrite Z.add_0_r; reflexivity).
    replace (_ <? _) with false by lia. lia.
  - rewrite Z.mod_small by lia. replace (_ <? _) with true by lia. reflexivity.
Qed.
Lemma le4_split v : 0 <= v < 4294967296 -> exists b0 b1 b2 b3, le 4 v = [b0; b1; b2; b3] /\ unle [b0; b1; b2; b3] = v /\ (128 <=? b3) = (2147483648 <=? v).
Proof.
  intro H. cbn [le]. do 4 eexists. split; [reflexivity|]. split.
  - etransitivity; [exact (unle_le 4 v)|]. apply Z.mod_small. exact H.
  - rewrite !Z.div_div by lia. rewrite (Z.mod_small (v / _)).
    2: { split; [apply Z.div_pos; lia|apply Z.div_lt_upper_bound; lia]. }
    change (256 * (256 * 256)) with 16777216. pose proof (Z.div_mod v 16777216 ltac:(lia)). pose proof (Z.mod_pos_bound v 16777216 ltac:(lia)). lia.
Qed.
Lemma scan_version strict per post seen rest : existsb (Z.eqb 0) seen = false ->
  cs_scan strict per post seen (0 :: rest) = scan_cons QVersion (cs_scan strict per post (0 :: seen) rest).
Proof. intro H. destruct strict; cbn [cs_scan]; cbn [Z.leb Z.compare orb Z.eqb andb]; rewrite H; reflexivity. Qed.
Lemma scan_one strict per post seen rest : existsb (Z.eqb 1) seen = false ->
  cs_scan strict per post seen (1 :: rest) =
    match rest with
    | b0 :: b1 :: b2 :: b3 :: b4 :: rest' =>
        if strict && (128 <=? b3) then inr UB_shift else
        scan_cons (QAnswer (signed32 (unle [b0; b1; b2; b3])) (b4 mod 16)) (cs_scan strict per post (1 :: seen) rest')
    | _ => cs_scan strict per post (1 :: seen) rest
    end.
Proof.
  intro H. cbn [cs_scan]. replace ((32 <=? 1) || strict && (1 =? 31)) with false by (destruct strict; reflexivity). rewrite H. reflexivity.
Qed.
Lemma scan_answer strict per post seen b0 b1 b2 b3 b4 rest : existsb (Z.eqb 1) seen = false ->
  cs_scan strict per post seen (1 :: [b0; b1; b2; b3] ++ [b4] ++ rest) =
    if strict && (128 <=? b3) then inr UB_shift else
    scan_cons (QAnswer (signed32 (unle [b0; b1; b2; b3])) (b4 mod 16)) (cs_scan strict per post (1 :: seen) rest).
Proof. intro H. rewrite scan_one by exact H. reflexivity. Qed.
Lemma scan_period strict per post seen p rest : existsb (Z.eqb 2) seen = false ->
  cs_scan strict per post seen (2 :: p :: rest) =
    if per && (5 <? p) then inr UB_overflow else scan_cons (QPeriod p) (cs_scan strict per post (2 :: seen) rest).
Proof. intro H. destruct strict; cbn [cs_scan app]; cbn [Z.leb Z.ltb Z.compare orb Z.eqb andb Pos.compare Pos.compare_cont Pos.eqb]; rewrite H; reflexivity. Qed.
Lemma scan_resync strict per post seen b rest : existsb (Z.eqb 3) seen = false ->
  cs_scan strict per post seen (3 :: b :: rest) = scan_cons (QResync (b mod 8)) (cs_scan strict per post (3 :: seen) rest).
Proof. intro H. destruct strict; cbn [cs_scan app]; cbn [Z.leb Z.ltb Z.compare orb Z.eqb andb Pos.compare Pos.compare_cont Pos.eqb]; rewrite H; reflexivity. Qed.
Lemma scan_encoded strict per post : forall qs seen, Forall cs_req_ok qs -> forallb (cs_req_safe strict per) qs = true ->
  NoDup (map cs_kind qs) -> (forall q, In q qs -> ~ In (cs_kind q) seen) ->
  cs_scan strict per post seen (flat_map cs_encode qs) = inl qs.
Proof.
  induction qs as [|q qs IH]; intros seen Hok Hsafe Hn Hseen; [reflexivity|].
  inversion Hok; subst. cbn [forallb] in Hsafe. apply andb_prop in Hsafe. destruct Hsafe as (Hs & Hsafe).
  apply nodup_cons in Hn. destruct Hn as (Hn & Hk).
  assert (Nin : existsb (Z.eqb (cs_kind q)) seen = false).
  { destruct (existsb _ seen) eqn:X; [|reflexivity]. apply existsb_exists in X. destruct X as (x & X1 & X2). apply Z.eqb_eq in X2. subst x.
    exfalso. apply (Hseen q); [left; reflexivity|exact X1]. }
  specialize (IH (cs_kind q :: seen) H2 Hsafe Hn).
  assert (IH' : cs_scan strict per post (cs_kind q :: seen) (flat_map cs_encode qs) = inl qs).
  { apply IH. intros x Hx [Y|Y]; [apply (Hk x Hx); symmetry; exact Y|]. apply (Hseen x); [right; exact Hx|exact Y]. }
  clear IH. cbn [flat_map]. destruct q; cbn [cs_kind] in *; cbn [cs_encode app].
  - rewrite scan_version by exact Nin. rewrite IH'. reflexivity.
  - destruct H1 as (A & B). destruct (le4_split (corr mod 4294967296)) as (b0 & b1 & b2 & b3 & L1 & L2 & L3); [apply Z.mod_pos_bound; lia|].
    rewrite L1, <- app_assoc. rewrite scan_answer by exact Nin. assert (St : strict && (128 <=? b3) = false).
    { rewrite L3. destruct strict; [|reflexivity]. cbn [cs_req_safe andb] in Hs. cbn [andb].
      rewrite Z.mod_small by lia. lia. }
    rewrite St, IH'. cbn [scan_cons]. rewrite L2, signed32_enc by exact A. rewrite Z.mod_small by exact B. reflexivity.
  - rewrite scan_period by exact Nin. cbn [cs_req_safe] in Hs. apply negb_true_iff in Hs. rewrite Hs, IH'. reflexivity.
  - rewrite scan_resync by exact Nin. rewrite IH'. cbn [scan_cons]. rewrite Z.mod_small by exact H1. reflexivity.
Qed.

(** ** Totality: a message has a defined outcome exactly when the scan has *)
Lemma cs_undef E w o k size l c : env_ok E -> Inv (w_st w) -> op_wf o -> cs_msg o = Some (size, l) ->
  cs_callbacks (s_cs (w_st w)) = Some c ->
  (call E o (w_hist w) (w_st w) = Undef k <->
   cs_scan (e_strict_shl E) (has_periodicity c) (post_of size l) [] (msg_of size l) = inr k).
Proof.
  intros HE HI Hw Hm Hc. destruct (cs_msg_call E o size l (w_hist w) (w_st w) Hw Hm) as (Q & Hb & Hz & Hl). rewrite Q. clear Q.
  destruct (cs_handle_all E c l size (w_hist w) (w_st w) HE HI Hc Hb Hz Hl) as (K & _). unfold as_unit, bind.
  rewrite K. destruct (cs_scan _ _ _ _ _) as [r|k0]; cbv zeta.
  - split; [unfold ret; discriminate|discriminate].
  - split; intro X; injection X as <-; reflexivity.
Qed.

(** ** Further along executions *)
Lemma cs_exec_from E ops w tr w' vw : env_ok E -> Forall op_wf ops -> reachable E w -> cs_rep (w_st w) vw ->
  exec E w ops tr w' -> cs_rep (w_st w') (fold_left (cs_see E) tr vw).
Proof.
  intros HE Hw Hr R H. revert vw Hw Hr R. induction H as [w|w o ops v es w1 tr w2 H0 H IH]; intros vw Hw Hr R; [exact R|].
  inversion Hw; subst. cbn [fold_left]. apply IH; try assumption.
  - apply (step_reach E w o v es); assumption.
  - apply (cs_step E w); try assumption. apply (reach_Inv E); assumption.
Qed.
Definition nocs (es : list ev) : Prop := Forall (fun e => is_cs_ev e = false) es.
Lemma nocs_corr es : nocs es -> corrections es = [] /\ periods es = [] /\ readings es = [] /\ resyncs es = [].
Proof.
  induction 1 as [|e es He Hf (I1 & I2 & I3 & I4)]; [repeat split|]. destruct e; try discriminate; cbn; auto.
Qed.
Lemma nocs_app a b : nocs a -> nocs b -> nocs (a ++ b).
Proof. intros. apply Forall_app. split; assumption. Qed.
Lemma crypto_nocs es : Forall (fun e => is_crypto e = true) es -> nocs es.
Proof. apply Forall_impl. intros []; cbn; congruence. Qed.
Lemma mac_nocs es : Forall (fun e => is_mac_ev e = true) es -> nocs es.
Proof. apply Forall_impl. intros []; cbn; congruence. Qed.
Lemma rand_nocs E h s : nocs (rand_evs E h s).
Proof. unfold rand_evs. destruct (_ =? 0); repeat constructor. Qed.
Lemma send_nocs E p d c h s e s' es : send_cases E p d c h s (Ok (e, s', es)) -> nocs es.
Proof.
  intro H. inv_ok H; try apply rand_nocs; [constructor|]. unfold send_events. cbv zeta.
  repeat apply nocs_app; try apply rand_nocs; try (apply crypto_nocs, mic_evs_crypto); try (repeat constructor; fail).
  destruct (_ =? 0); [constructor|apply crypto_nocs, crypt_evs_crypto].
Qed.
Lemma join_nocs E h s e s' es : join_cases E h s (Ok (e, s', es)) -> nocs es.
Proof.
  intro H. inv_ok H; try apply rand_nocs; [constructor|]. unfold join_events. cbv zeta.
  repeat apply nocs_app; try apply rand_nocs; try (apply crypto_nocs, mic_evs_crypto); repeat constructor.
Qed.
Lemma dl_nocs E h s s' es : env_ok E -> e_strict_shl E = false -> Inv s -> uw_region (s_stk s) <> None ->
  dl_cases E h s (Ok (tt, s', es)) -> nocs es.
Proof.
  intros HE Hns HI Hr H.
  assert (HI1 : Inv (rx_state (rx_data (e_pkt E h)) s))
    by (apply rx_state_Inv; [exact HI|apply (ok_pkt_byte E HE)|apply (ok_pkt_len E HE)]).
  inversion H; subst; (constructor; [reflexivity|]); (constructor; [reflexivity|]); (apply nocs_app; [|repeat constructor]).
  - apply crypto_nocs. eapply ja_quiet. eassumption.
  - set (sx := rx_state (rx_data (e_pkt E h)) s) in *. set (dx := rx_data (e_pkt E h)) in *.
    assert (Hq : forall c, new_cnt (f_cnt_down (s_ses sx)) (g16 dx 6) = Some c ->
      nocs (snd (d_cmds E (h ++ [RRead (e_pkt E h); RSleep]) dx (rx_snr (e_pkt E h)) c sx))).
    { intros c Hc. apply mac_nocs. apply d_cmds_facts; auto.
      - apply (ok_pkt_byte E HE).
      - apply (ok_pkt_snr E HE).
      - eapply new_cnt_range; [|exact Hc]. apply g16_range. apply (ok_pkt_byte E HE). }
    match goal with H : data_cases _ _ _ _ _ _ _ |- _ => inv_ok H end; try apply Forall_nil; repeat apply nocs_app; auto.
    + apply crypto_nocs, mic_evs_crypto.
    + apply crypto_nocs, mic_evs_crypto.
    + unfold d_dec_evs. destruct (_ <=? 1); [apply Forall_nil|apply crypto_nocs, crypt_evs_crypto].
Qed.
Lemma irq_nocs E m h s s' es : env_ok E -> e_strict_shl E = false -> Inv s ->
  irq_cases E m h s (Ok (tt, s', es)) -> nocs es.
Proof.
  intros HE Hns HI H. inv_ok H; try (repeat constructor; fail).
  - unfold tx_done_evs, tx_done_evs1, tx_done_time. apply nocs_app; [repeat constructor|].
    destruct (mac_save_dev_time _); [|constructor]. destruct (mac_cbs _) as [c|]; [|constructor].
    destruct (has_get_device_time c); repeat constructor.
  - constructor; [reflexivity|]. eapply dl_nocs; [exact HE|exact Hns| | |eassumption]; [apply idle_Inv|apply idle_region]; congruence || assumption.
  - eapply dl_nocs; [exact HE|exact Hns| | |eassumption]; [apply idle_Inv|apply idle_region]; congruence || assumption.
Qed.
Lemma step_nocs E w o v es w' : env_ok E -> Inv (w_st w) -> op_wf o -> step E w o = Some (v, es, w') ->
  (exists e b n p, o = OCsHandle e b n p) \/ (exists a, o = OCsSendReq a) \/ nocs es.
Proof.
  intros HE HI Hw H. pose proof (step_inv E w o v es w' HE HI Hw H) as Q. remember (w_st w') as s' eqn:Es. clear Es H.
  destruct Q as [o v s1 A|r|e s1 es1 A|p d c e s1 es1 A|t|m s1 es1 A|e b n p es1 s1 A B C|a e A B|a e s1 es1 A B|e A B|e s1 es1 A B]; eauto 10.
  all: right; right; try (repeat constructor; fail).
  - eapply join_nocs. exact A.
  - eapply send_nocs. exact A.
  - unfold timer_evs. destruct (uw_state _), t; repeat constructor.
  - apply (irq_nocs (relax E) m (w_hist w) (w_st w) s1 es1 (relax_ok E HE) eq_refl HI A).
  - eapply send_nocs. exact B.
Qed.

Definition is_cs_init (o : op) : bool := match o with OCsInit _ => true | _ => false end.
Lemma see_tok E w o v es w' vw : env_ok E -> Inv (w_st w) -> op_wf o -> step E w o = Some (v, es, w') -> is_cs_init o = false -> 0 <= cv_tok vw < 16 ->
  cv_tok (cs_see E vw (o, v, es)) = (cv_tok vw + len (corrections es)) mod 16 /\ cv_cbs (cs_see E vw (o, v, es)) = cv_cbs vw.
Proof.
  intros HE HI Hw H Hi Ht.
  assert (Zero : corrections es = [] -> cs_see E vw (o, v, es) = vw -> cv_tok (cs_see E vw (o, v, es)) = (cv_tok vw + len (corrections es)) mod 16 /\ cv_cbs (cs_see E vw (o, v, es)) = cv_cbs vw).
  { intros -> ->. change (len []) with 0. rewrite Z.add_0_r, Z.mod_small by exact Ht. auto. }
  destruct (step_nocs E w o v es w' HE HI Hw H) as [(e & b & n & p & ->)|[(a & ->)|N]].
  - assert (N : e <> ERR_NO -> es = []).
    { intro X. apply (cs_no_msg E w e b n p v es w' HE HI Hw H). left. unfold cs_msg. destruct e; (reflexivity || congruence). }
    destruct e; try (apply Zero; [rewrite N by discriminate; reflexivity|reflexivity]). split; reflexivity.
  - apply Zero; [|reflexivity]. destruct (step_cs_req E w a v es w' HE HI H) as (e & -> & [(_ & _ & -> & _)|(_ & es1 & -> & Hc)]); [reflexivity|].
    apply send_nocs, nocs_corr in Hc. apply Hc.
  - apply nocs_corr in N. destruct N as (N & _). destruct o; try discriminate; try (apply Zero; [exact N|reflexivity]).
    destruct e; try (apply Zero; [exact N|reflexivity]); split; reflexivity.
Qed.
Lemma exec_tok E ops w tr w' vw : env_ok E -> Forall op_wf ops -> reachable E w -> exec E w ops tr w' ->
  forallb (fun o => negb (is_cs_init o)) ops = true -> 0 <= cv_tok vw < 16 ->
  cv_tok (fold_left (cs_see E) tr vw) = (cv_tok vw + len (corrections (all_evs tr))) mod 16 /\
  cv_cbs (fold_left (cs_see E) tr vw) = cv_cbs vw.
Proof.
  intros HE Hw Hr H. revert vw Hw Hr. induction H as [w|w o ops v es w1 tr w2 H0 H IH]; intros vw Hw Hr Hi Ht.
  { cbn. rewrite Z.add_0_r, Z.mod_small by exact Ht. auto. }
  inversion Hw; subst. cbn [forallb] in Hi. apply andb_prop in Hi. destruct Hi as (Hi1 & Hi2). apply negb_true_iff in Hi1.
  destruct (see_tok E w o v es w1 vw HE (reach_Inv E w HE Hr) H3 H0 Hi1 Ht) as (A & B).
  destruct (IH (cs_see E vw (o, v, es)) H4 (step_reach E w o v es w1 Hr H3 H0) Hi2) as (C & D).
  { rewrite A. apply Z.mod_pos_bound. lia. }
  cbn [fold_left all_evs flat_map]. change (evs_of (o, v, es)) with es. rewrite C, D, A, B. split; [|reflexivity].
  rewrite corrections_app, len_app. rewrite Z.add_mod_idemp_l by lia. f_equal. unfold all_evs. lia.
Qed.
Lemma run_readings E c h : forall qs a, len (readings (ca_evs (cs_run E c h qs a))) = len (readings (ca_evs a)) + len (period_ids qs).
Proof.
  induction qs as [|q qs IH]; intro a; cbn [cs_run].
  - cbn. lia.
  - rewrite IH. destruct q; try reflexivity.
    + cbn [cs_do]. destruct (_ =? _); cbn [ca_evs]; rewrite ?readings_app; cbn; rewrite ?app_nil_r; reflexivity.
    + cbn [cs_do ca_evs period_ids flat_map app]. fold (period_ids qs). unfold len. destruct (has_periodicity c); rewrite !readings_app, !app_length; cbn [readings flat_map app length]; lia.
    + cbn [cs_do ca_evs]. destruct (_ =? _); rewrite ?readings_app; cbn; rewrite ?app_nil_r; reflexivity.
Qed.

(** ** Sending on the clock port *)
Lemma cs_send_obs E w p d h1 s1 e s' es : env_ok E -> Inv (w_st w) -> same_but_cs s1 (w_st w) ->
  send_cases E p d false h1 s1 (Ok (e, s', es)) ->
  tx_frames es = (match e with ERR_NO => [frame_of E w false p d] | _ => [] end) /\
  (idle w -> send_result w d e) /\ (~ idle w -> e = ERR_STATE).
Proof.
  intros HE HI Hs Hc. destruct Hs as (cx & ->). set (s1 := on_cs (fun _ => cx) (w_st w)) in *.
  assert (F : forall p d, send_frame_bytes E p d false s1 = frame_of E w false p d) by (intros; apply frame_of_send; exists cx; reflexivity).
  assert (Hq : mac_buf_pos (s_mac s1) = 0 <-> fopts w = []) by apply (queue_nil _ (iv_mac _ HI)).
  assert (Hm : p_max s1 = max_payload w) by (rewrite max_p by exact HI; reflexivity).
  pose proof (next_freq_cases E h1 w s1 HI eq_refl) as Hn.
  assert (Hso : next_freq E h1 s1 <> 0 -> some_channel w).
  { intro Hz. destruct Hn as [(i & A & B & _)|(A & _)]; [exists i; auto|contradiction]. }
  assert (Hid : uw_state (s_stk s1) = IDLE <-> idle w) by reflexivity.
  inv_ok Hc.
  - split; [reflexivity|]. split; [tauto|reflexivity].
  - split; [apply (quiet_obs _ (rand_quiet _ _ _))|]. split; [|tauto]. intros _. apply SR_channel. destruct Hn as [(i & A & B & C & D)|(_ & A)]; [lia|exact A].
  - split; [apply (quiet_obs _ (rand_quiet _ _ _))|]. split; [|tauto]. intros _. apply SR_len; [auto|]. rewrite <- Hm. rewrite len_0 in *. tauto.
  - split; [rewrite <- F; apply send_obs|]. split; [|tauto]. intros _. apply SR_ok; [auto|rewrite <- Hm; assumption|].
    rewrite len_0 in *. destruct d; [|left; discriminate]. right. intro X. apply Hq in X. tauto.
Qed.
Lemma exec_app E w a t1 w1 b t2 w2 : exec E w a t1 w1 -> exec E w1 b t2 w2 -> exec E w (a ++ b) (t1 ++ t2) w2.
Proof. intro H. revert b t2 w2. induction H; intros b t2 w3 H2; [exact H2|]. cbn [app]. eapply exec_cons; [eassumption|auto]. Qed.
