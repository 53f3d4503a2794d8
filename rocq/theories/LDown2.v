(** LDown2.v -- received data frames in the words of SpecRx (C10 - C15). *)
From Verif Require Export LJoin2.

Lemma fr_confirmed_d d : d_hdr_ok d -> fr_confirmedb d = (d_mtype d =? 5).
Proof.
  intros (A & B & _). unfold fr_confirmedb. rewrite at_get. change (Z.of_nat 0) with 0.
  replace (12 <=? length d)%nat with true by (symmetry; apply Nat.leb_le; unfold len in A; lia).
  rewrite B. reflexivity.
Qed.
Lemma fr_confirmed_no d : ~ d_hdr_ok d -> fr_confirmedb d = false.
Proof.
  intro H. destruct (fr_confirmedb d) eqn:F; [|reflexivity]. exfalso. apply H.
  unfold fr_confirmedb in F. rewrite at_get in F. change (Z.of_nat 0) with 0 in F.
  apply andb_prop in F. destruct F as [F F3]. apply andb_prop in F. destruct F as [F1 F2].
  apply Nat.leb_le in F1. unfold d_hdr_ok, d_mtype, len. split; [lia|]. split; [lia|]. right. lia.
Qed.
Lemma d_ack_ses d s : s_ses (d_ack d s) = set_ack_required (ack_required (s_ses s) || (d_mtype d =? 5)) (s_ses s).
Proof.
  unfold d_ack. destruct (d_mtype d =? 5).
  - rewrite orb_true_r. reflexivity.
  - rewrite orb_false_r. destruct s as [? ? ? [] ? ?]. reflexivity.
Qed.
Lemma hdr_dec d : d_hdr_ok d \/ ~ d_hdr_ok d.
Proof.
  unfold d_hdr_ok. destruct (Z_le_dec 12 (len d)); destruct (Z.eq_dec (get d 0 mod 4) 0);
    destruct (Z.eq_dec (d_mtype d) 3); destruct (Z.eq_dec (d_mtype d) 5); tauto.
Qed.

Lemma recv_dec w m : receives w m \/ ~ receives w m.
Proof.
  unfold receives. destruct (uw_state (stk w)), (Z.testbit m 0), (Z.testbit m 1), (Z.testbit m 3);
    try (left; tauto); right; intros (A & B & C & D); try discriminate; destruct A; discriminate.
Qed.
Lemma recv_case w o : (exists m, o = OIrq m /\ receives w m) \/ (forall m, o = OIrq m -> ~ receives w m).
Proof.
  destruct o; try (right; intros; discriminate). destruct (recv_dec w mask) as [R|R]; [left; eauto|].
  right. intros m' E. injection E as <-. exact R.
Qed.

(** the outcome, restated *)
Record same_out (s s' : st) : Prop := Mk_same_out {
  so_cs : s_cs s' = s_cs s; so_mac : s_mac s' = s_mac s;
  so_stk : but_transient (s_stk s') = but_transient (s_stk s) }.
Lemma untouched_of E w d c w' s2 :
  macfr (d_cnt d (rx_snr (received E w)) c (rx_s1 E w)) s2 -> same_out s2 (w_st w') -> untouched w w'.
Proof.
  intros [] [A B C]. unfold untouched, stk. rewrite A, B.
  assert (H : outside (s_stk (w_st w')) = outside (s_stk s2)) by (unfold outside; rewrite C; reflexivity). rewrite H.
  assert (P : s_cs (d_cnt d (rx_snr (received E w)) c (rx_s1 E w)) = s_cs (w_st w) /\
    s_mac (d_cnt d (rx_snr (received E w)) c (rx_s1 E w)) = s_mac (w_st w) /\
    outside (s_stk (d_cnt d (rx_snr (received E w)) c (rx_s1 E w))) = outside (s_stk (w_st w))).
  { unfold d_cnt, d_ack. destruct (_ =? 5); repeat split; reflexivity. }
  destruct P as (P1 & P2 & P3). rewrite mf_cs, mf_save, mf_time, mf_cbs, P1, P2. repeat (split; [reflexivity|]).
  rewrite <- P3. clear - mf_region mf_params mf_rx1 mf_rx2 mf_nonce mf_deui mf_aeui mf_key mf_ddr mf_dnb mf_dtxp mf_eirp.
  destruct (s_stk s2), (s_stk (d_cnt d (rx_snr (received E w)) c (rx_s1 E w))). unfold outside, but_transient. cbn in *. subst. reflexivity.
Qed.
Inductive data_out (E : env) (w : world) (d : list Z) (es : list ev) (w' : world) : Prop :=
| DO_reject r t view : r <> ERR_NO -> r <> ERR_MSG_MIC ->
    (r = ERR_MSG_LEN /\ (length d < 12)%nat \/
     r = ERR_MSG_MHDR /\ (12 <= length d)%nat /\ ~ fr_down d \/
     (12 <= length d)%nat /\ fr_down d /\
     (r = ERR_DEV_ADDR /\ fr_addr d <> dev_addr (ses w) \/
      fr_addr d = dev_addr (ses w) /\
      (r = ERR_MSG_LEN /\ ~ fr_sized d \/ r = ERR_FCNT /\ fr_sized d /\ new_cnt (f_cnt_down (ses w)) (fr_cnt16 d) = None))) ->
    callbacks es = [(r, t, view)] -> mac_calls es = [] ->
    kept_but_ack w w' (ack_required (ses w) || fr_confirmedb d) -> data_out E w d es w'
| DO_checked r c t view : (12 <= length d)%nat -> fr_down d -> fr_sized d -> fr_addr d = dev_addr (ses w) ->
    new_cnt (f_cnt_down (ses w)) (fr_cnt16 d) = Some c ->
    (r = ERR_NO /\ authentic E w d c /\ t = at_ d 0 / 32 /\ view = fr_view E w d c (rx_rssi (received E w)) (rx_snr (received E w)) /\
     s_adr (w_st w') = set_ack_cnt 0 (s_adr (w_st w)) \/
     r = ERR_MSG_MIC /\ ~ authentic E w d c /\ s_adr (w_st w') = s_adr (w_st w)) ->
    callbacks es = [(r, t, view)] ->
    same_keys w w' -> f_cnt_down (ses w') = c -> ack_required (ses w') = ack_required (ses w) || fr_confirmedb d ->
    untouched w w' ->
    (dev_w w', mac_calls es) = mac_run (rx_ctx E w) (cmd_hist E w) (mac_parse (fr_fopts d)) (dev_w w) ->
    data_out E w d es w'.

Lemma new_cnt_mod cur f16 c : 0 <= cur < 4294967296 -> 0 <= f16 < 65536 -> new_cnt cur f16 = Some c -> c mod 65536 = f16.
Proof.
  intros Hc Hf. unfold new_cnt. destruct (Z.eqb_spec cur 0).
  { intro H. injection H as <-. apply Z.mod_small. exact Hf. }
  cbv zeta. destruct (_ =? 0); [discriminate|].
  assert (M : forall x, u32 x mod 65536 = x mod 65536).
  { intro x. unfold u32. change 4294967296 with (65536 * 65536). rewrite Z.rem_mul_r by lia.
    rewrite (Z.mul_comm 65536). rewrite Z_mod_plus_full. apply Z.mod_mod. lia. }
  pose proof (Z.div_mod cur 65536 ltac:(lia)).
  destruct (_ <=? 16384); intro H0; injection H0 as <-; rewrite M.
  - rewrite Z.add_mod_idemp_r by lia. replace (cur + (f16 - cur)) with f16 by lia. apply Z.mod_small. exact Hf.
  - replace (cur - cur mod 65536 + 65536 + f16) with (f16 + (cur / 65536 + 1) * 65536) by lia.
    rewrite Z_mod_plus_full. apply Z.mod_small. exact Hf.
Qed.

Lemma skip_skip {A} i j (l : list A) : skipn i (skipn j l) = skipn (i + j) l.
Proof.
  revert l. induction j as [|j IH]; intro l; [rewrite Nat.add_0_r; reflexivity|].
  replace (i + S j)%nat with (S (i + j)) by lia. destruct l as [|a l]; [cbn; apply skipn_nil|]. cbn. apply IH.
Qed.
Lemma nth_firstn_lt {A} (d : list A) k n x : (n < k)%nat -> nth n (firstn k d) x = nth n d x.
Proof.
  revert k n. induction d as [|a d IH]; intros [|k] [|n] H; cbn; try reflexivity; try lia. apply IH. lia.
Qed.

Lemma fr_frm_d E w d c F : bytes_ok d -> d_hdr_ok d -> 12 + d_fopts_len d <= len d ->
  (forall k b, length (e_aes E k b) = 16%nat) -> forall s2, frame s2 = over (d_frame E d c (w_st w)) F ->
  p_view (if 0 <? d_rest d
          then Mk_pkt (Some (9 + d_fopts_len d)) (d_rest d - 1) (d_port d) (rx_rssi (received E w)) (rx_snr (received E w))
          else Mk_pkt None 0 0 (rx_rssi (received E w)) (rx_snr (received E w))) s2 =
  fr_view E w d c (rx_rssi (received E w)) (rx_snr (received E w)).
Proof.
  intros Hb (H12 & _) Hl Ha s2 HF. pose proof (fr_fopts_len_d d Hb) as Hfo.
  unfold fr_view, fr_frm. set (n := (8 + fr_fopts_len d)%nat) in *.
  assert (Hrest : Z.of_nat (length (skipn n (fr_body d))) = d_rest d).
  { unfold fr_body. rewrite skipn_length, firstn_length. unfold d_rest, len in *. lia. }
  destruct (skipn n (fr_body d)) as [|p l] eqn:Es.
  { cbn [length] in Hrest. rewrite <- Hrest. reflexivity. }
  assert (Hpos : (0 <? d_rest d) = true) by (cbn [length] in Hrest; lia). rewrite Hpos.
  assert (Hp : d_port d = p).
  { unfold d_port. rewrite Hpos. unfold get. replace (Z.to_nat (8 + d_fopts_len d)) with n by lia.
    assert (G : nth 0 (skipn n (fr_body d)) 0 = p) by (rewrite Es; reflexivity).
    rewrite nth_skipn in G. rewrite Nat.add_0_r in G. unfold fr_body in G.
    rewrite <- G. symmetry. apply nth_firstn_lt. unfold d_rest, len in *. lia. }
  assert (Hpl : d_pld d = l).
  { unfold d_pld, sub. replace (Z.to_nat (9 + d_fopts_len d)) with (1 + n)%nat by lia.
    replace (Z.to_nat (d_rest d - 1)) with (length l) by (cbn [length] in Hrest; lia).
    assert (G : skipn 1 (skipn n (fr_body d)) = l) by (rewrite Es; reflexivity).
    rewrite skip_skip in G. unfold fr_body in G. rewrite skipn_firstn_comm in G. rewrite <- G at 2.
    f_equal. cbn [length] in Hrest. unfold d_rest, len in *. lia. }
  unfold p_view. cbn [pk_off pk_size pk_port pk_rssi pk_snr]. rewrite HF, Hp.
  assert (Hsz : d_rest d - 1 = len l) by (unfold len; cbn [length] in Hrest; lia).
  f_equal; [|lia]. f_equal.
  assert (Hdp : crypt (e_aes E) (down_key (nwk_s_key (ses w)) (app_s_key (ses w)) p) DOWN (dev_addr (ses w)) c l = d_plain E d c (w_st w)).
  { unfold d_plain, d_key. rewrite Hp, Hpl. reflexivity. }
  rewrite Hdp. unfold d_frame.
  assert (Hlp : length (d_plain E d c (w_st w)) = length l) by (rewrite <- Hdp; apply crypt_length; exact Ha).
  destruct (Z.leb_spec (d_rest d) 1) as [L1|L1].
  - destruct l; [|cbn [length] in Hrest; lia]. destruct (d_plain E d c (w_st w)); [|discriminate].
    rewrite Hsz. unfold sub, len. cbn [length Z.of_nat Z.to_nat firstn]. reflexivity.
  - assert (Hd9 : length (firstn (Z.to_nat (9 + d_fopts_len d)) d) = Z.to_nat (9 + d_fopts_len d))
      by (rewrite firstn_length; unfold d_rest, len in *; lia).
    unfold sub, over. rewrite <- !app_assoc. rewrite skipn_exact by exact Hd9.
    apply firstn_exact. rewrite Hlp, Hsz. unfold len. lia.
Qed.

Lemma rx_frame0' E w : (12 <= length (rx_data (received E w)))%nat ->
  get (frame (rx_s1 E w)) 0 / 32 = at_ (rx_data (received E w)) 0 / 32.
Proof. intro H. rewrite rx_frame0 by lia. rewrite at_get. reflexivity. Qed.

Lemma data_outcome E w m v es w' : env_ok E -> Inv (w_st w) -> step E w (OIrq m) = Some (v, es, w') ->
  receives w m -> joining w = false -> data_out E w (rx_data (received E w)) es w'.
Proof.
  intros HE HI H Hr Hj. pose proof (rx_outcome E w m v es w' HE HI H Hr Hj) as O.
  set (d := rx_data (received E w)) in *. assert (Hb : bytes_ok d) by apply (ok_pkt_byte E HE).
  destruct (rx_s1_Inv E w HE HI (proj1 Hr)) as [HI1 Hreg].
  assert (Hsnr : -128 <= rx_snr (received E w) < 128) by apply (ok_pkt_snr E HE).
  assert (Hcur : 0 <= f_cnt_down (ses w) < 4294967296) by apply (iv_ses _ HI).
  destruct O as [r t vw A B C D F G|r t vw A B C0 C D F G|c t vw A B C cm D F|c A B cm D F C].
  - assert (Hn : ~ d_hdr_ok d) by (destruct C as [[_ C]|(_ & _ & C)]; [intros (X & _); lia|exact C]).
    apply (DO_reject E w d es w' r t vw); try assumption.
    + destruct C as [[-> C]|(-> & C1 & C2)]; [left|right; left]; (split; [reflexivity|]); [unfold len in C; lia|].
      split; [unfold len in C1; lia|]. rewrite fr_down_d by exact C1. exact C2.
    + rewrite (fr_confirmed_no d Hn), orb_false_r.
      unfold kept_but_ack, ses, stk. rewrite G. repeat (split; [reflexivity|]). split; [|split; reflexivity].
      destruct w as [[? ? ? [] ? ?] ?]. reflexivity.
  - assert (H12 : 12 <= len d) by apply C0.
    apply (DO_reject E w d es w' r t vw); try assumption.
    + right. right. split; [unfold len in H12; lia|]. rewrite fr_down_d by exact H12. split; [exact C0|].
      rewrite fr_addr_d by exact H12. rewrite fr_sized_d by exact Hb. rewrite fr_cnt16_d by exact H12.
      destruct C as [[-> C]|[(-> & C1 & C2)|(-> & C1 & C2 & C3)]]; [left; auto|right..]; (split; [assumption|]); [left|right]; split; auto. lia.
    + rewrite (fr_confirmed_d d C0).
      unfold kept_but_ack, ses, stk. rewrite G. repeat split; try reflexivity.
      * unfold d_ack. destruct (_ =? 5); reflexivity.
      * unfold d_ack. destruct (_ =? 5); reflexivity.
      * unfold d_ack. destruct (_ =? 5); reflexivity.
      * change (s_ses (end_dl (d_ack d (rx_s1 E w)))) with (s_ses (d_ack d (rx_s1 E w))). rewrite d_ack_ses. reflexivity.
      * unfold d_ack. destruct (_ =? 5); reflexivity.
      * unfold d_ack. destruct (_ =? 5); reflexivity.
  - pose proof (checked_run E w c m HE HI Hr A) as Hrun. fold d in Hrun. cbv zeta in Hrun. fold cm in Hrun.
    destruct A as (A1 & A2 & A3 & A4). assert (H12 : 12 <= len d) by apply A1.
    assert (Hcr : 0 <= c < 4294967296) by (eapply new_cnt_range; [|exact A4]; apply g16_range; exact Hb).
    destruct (d_cmds_facts (relax E) (cmd_hist E w) d (rx_snr (received E w)) c (rx_s1 E w)
      (relax_ok E HE) eq_refl HI1 Hreg Hb Hsnr Hcr) as (_ & Fr & _). fold cm in Fr.
    pose proof (d_ack_ses d (rx_s1 E w)) as Hack. pose proof Fr as Fr'. destruct Fr'.
    assert (Hs0 : s_ses (d_cnt d (rx_snr (received E w)) c (rx_s1 E w)) = set_f_cnt_down c (s_ses (d_ack d (rx_s1 E w)))) by reflexivity.
    rewrite Hs0, Hack in *. cbn [set_f_cnt_down set_ack_required is_joined ack_required dev_addr f_cnt_up f_cnt_down nwk_s_key app_s_key] in *.
    assert (L12 : (12 <= length d)%nat) by (unfold len in H12; lia).
    apply (DO_checked E w d es w' ERR_MSG_MIC c t vw); try assumption.
    + rewrite fr_down_d by exact H12. exact A1.
    + rewrite fr_sized_d by exact Hb. exact A3.
    + rewrite fr_addr_d by exact H12. exact A2.
    + rewrite fr_cnt16_d by exact H12. exact A4.
    + right. split; [reflexivity|]. split; [intros (_ & _ & _ & _ & _ & X); apply B; exact X|].
      rewrite F. change (s_adr (end_dl (fst cm))) with (s_adr (fst cm)). rewrite mf_adr. unfold d_cnt, d_ack. destruct (_ =? 5); reflexivity.
    + unfold same_keys, ses. rewrite F. change (s_ses (end_dl (fst cm))) with (s_ses (fst cm)). auto 6.
    + unfold ses. rewrite F. exact mf_down.
    + unfold ses. rewrite F. rewrite (fr_confirmed_d d A1). exact mf_ack.
    + apply (untouched_of E w d c w' (fst cm)); [exact Fr|rewrite F; constructor; reflexivity].
    + rewrite Hrun. rewrite D. f_equal. unfold dev_w. rewrite F. reflexivity.
  - pose proof (checked_run E w c m HE HI Hr A) as Hrun. fold d in Hrun. cbv zeta in Hrun. fold cm in Hrun.
    destruct A as (A1 & A2 & A3 & A4). assert (H12 : 12 <= len d) by apply A1.
    assert (Hcr : 0 <= c < 4294967296) by (eapply new_cnt_range; [|exact A4]; apply g16_range; exact Hb).
    destruct (d_cmds_facts (relax E) (cmd_hist E w) d (rx_snr (received E w)) c (rx_s1 E w)
      (relax_ok E HE) eq_refl HI1 Hreg Hb Hsnr Hcr) as (_ & Fr & _). fold cm in Fr.
    pose proof (d_ack_ses d (rx_s1 E w)) as Hack. pose proof Fr as Fr'. destruct Fr'.
    assert (Hs0 : s_ses (d_cnt d (rx_snr (received E w)) c (rx_s1 E w)) = set_f_cnt_down c (s_ses (d_ack d (rx_s1 E w)))) by reflexivity.
    rewrite Hs0, Hack in *. cbn [set_f_cnt_down set_ack_required is_joined ack_required dev_addr f_cnt_up f_cnt_down nwk_s_key app_s_key] in *.
    assert (L12 : (12 <= length d)%nat) by (unfold len in H12; lia).
    rewrite rx_frame0' in C by exact L12. fold d in C.
    set (s2 := on_adr (set_ack_cnt 0) (with_frame (over (d_frame E d c (w_st w)) (frame (rx_s1 E w))) (fst cm))) in *.
    rewrite (fr_frm_d E w d c _ Hb A1 A3 (ok_aes_len E HE) s2 eq_refl) in C.
    apply (DO_checked E w d es w' ERR_NO c (at_ d 0 / 32) (fr_view E w d c (rx_rssi (received E w)) (rx_snr (received E w)))); try assumption.
    + rewrite fr_down_d by exact H12. exact A1.
    + rewrite fr_sized_d by exact Hb. exact A3.
    + rewrite fr_addr_d by exact H12. exact A2.
    + rewrite fr_cnt16_d by exact H12. exact A4.
    + left. split; [reflexivity|]. split; [|split; [reflexivity|split; [reflexivity|]]].
      * unfold authentic. split; [exact L12|]. rewrite fr_down_d by exact H12. rewrite fr_sized_d by exact Hb.
        rewrite fr_addr_d by exact H12. rewrite fr_cnt16_d by exact H12. split; [exact A1|]. split; [exact A3|]. split; [exact A2|].
        split; [|exact B]. symmetry. eapply new_cnt_mod; [exact Hcur| |exact A4]. apply g16_range. exact Hb.
      * rewrite F. change (s_adr (end_dl s2)) with (set_ack_cnt 0 (s_adr (fst cm))). rewrite mf_adr.
        unfold d_cnt, d_ack. destruct (_ =? 5); reflexivity.
    + unfold same_keys, ses. rewrite F. change (s_ses (end_dl s2)) with (s_ses (fst cm)). auto 6.
    + unfold ses. rewrite F. exact mf_down.
    + unfold ses. rewrite F. rewrite (fr_confirmed_d d A1). exact mf_ack.
    + apply (untouched_of E w d c w' (fst cm)); [exact Fr|rewrite F; constructor; reflexivity].
    + rewrite Hrun. rewrite D. f_equal. unfold dev_w. rewrite F. reflexivity.
Qed.
