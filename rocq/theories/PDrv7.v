(** PDrv7.v -- the primitives of src/device/sx127x.c as transactions *)
From Verif Require Export PDrv.
From Verif Require Export Sx127x.

Section D127.
Context (H : henv) (HH : henv_ok H).
Local Notation on s := (exists o, a_hal s = Some o).

Lemma wp_deref7 h s (Q : hal_opts -> d127 -> list item -> Prop) o : a_hal s = Some o -> Q o s [] -> wp deref h s Q.
Proof. intros Ho HQ. unfold deref. apply wp_bind, wp_gets. rewrite Ho. apply wp_ret. exact HQ. Qed.

Lemma wp_write_regs addr data h s (Q : unit -> d127 -> list item -> Prop) : on s ->
  (forall x, mosi x = Z.lor addr 128 :: data -> Q tt s [Tr x]) -> wp (write_regs H addr data) h s Q.
Proof.
  intros (o & Ho) HQ. set (b := h_xfer H (unparse h ++ [HSelect true]) (Z.lor addr 128)).
  destruct (xfer_out_run H data (unparse h ++ [HSelect true; HXfer (Z.lor addr 128) b]) s) as (rs & L & E).
  exists tt, s, [Tr ((Z.lor addr 128, b) :: combine data rs)]. split.
  - unfold write_regs, deref, bind, gets. rewrite Ho. unfold emit, ret, xfer, query. cbv beta iota. rewrite ?app_nil_r, <- ?app_assoc. cbn [app]. fold b. rewrite E.
    unfold unparse. cbn [flat_map item_evs map fst snd app]. rewrite ?app_nil_r. reflexivity.
  - split; [constructor; [discriminate|constructor]|]. apply HQ. cbn [mosi map fst]. f_equal. apply mosi_combine. exact L.
Qed.
Lemma wp_write_reg addr data h s (Q : unit -> d127 -> list item -> Prop) : on s ->
  (forall x, mosi x = [Z.lor addr 128; data] -> Q tt s [Tr x]) -> wp (write_reg H addr data) h s Q.
Proof.
  intros Ho HQ. apply (wp_write_regs addr [data] h s Q) in HQ; [|exact Ho]. unfold write_regs, xfer_out in HQ. unfold write_reg.
  destruct HQ as (v & s' & its & E & R). exists v, s', its. split; [|exact R]. revert E. clear. unfold bind.
  destruct (deref (unparse h) s) as [[[a s1] e1]|]; [|discriminate]. unfold emit, xfer, query, ret. cbn [app]. rewrite ?app_nil_r. intro E. exact E.
Qed.
Lemma wp_read_array addr n h s (Q : list Z -> d127 -> list item -> Prop) : on s -> 0 <= n ->
  (forall b y rs, rs = miso y -> len rs = n -> bytes_ok rs -> mosi y = repeat 0 (Z.to_nat n) -> Q rs s [Tr ((addr, b) :: y)]) -> wp (read_array H addr n) h s Q.
Proof.
  intros (o & Ho) Hn HQ. set (b := h_xfer H (unparse h ++ [HSelect true]) addr).
  destruct (xfer_in_run H 0 HH (Z.to_nat n) (unparse h ++ [HSelect true; HXfer addr b]) s) as (rs & L & B & E).
  exists rs, s, [Tr ((addr, b) :: combine (repeat 0 (Z.to_nat n)) rs)]. split.
  - unfold read_array, deref, bind, gets. rewrite Ho. unfold emit, ret, xfer, query. cbv beta iota. rewrite ?app_nil_r, <- ?app_assoc. cbn [app]. fold b. rewrite E.
    unfold unparse. cbn [flat_map item_evs map fst snd app]. rewrite ?app_nil_r. reflexivity.
  - split; [constructor; [discriminate|constructor]|].
    assert (L2 : length rs = length (repeat 0 (Z.to_nat n))) by (rewrite repeat_length; exact L).
    apply HQ; [rewrite miso_combine by exact L2; reflexivity|unfold len; lia|exact B|apply mosi_combine; exact L2].
Qed.
Lemma wp_read_reg addr h s (Q : Z -> d127 -> list item -> Prop) : on s ->
  (forall b v, v = h_xfer H (unparse h ++ [HSelect true; HXfer addr b]) 0 -> is_byte v -> Q v s [Tr [(addr, b); (0, v)]]) -> wp (read_reg H addr) h s Q.
Proof.
  intros (o & Ho) HQ. set (b := h_xfer H (unparse h ++ [HSelect true]) addr).
  exists (h_xfer H (unparse h ++ [HSelect true; HXfer addr b]) 0), s, [Tr [(addr, b); (0, h_xfer H (unparse h ++ [HSelect true; HXfer addr b]) 0)]]. split.
  - unfold read_reg, deref, bind, gets. rewrite Ho. unfold emit, ret, xfer, query. cbv beta iota. rewrite ?app_nil_r, <- ?app_assoc. cbn [app]. fold b.
    unfold unparse. cbn [flat_map item_evs map fst snd app]. rewrite ?app_nil_r, <- ?app_assoc. reflexivity.
  - split; [constructor; [discriminate|constructor]|]. apply HQ; [reflexivity|apply HH].
Qed.
Lemma wp_set_op_mode mode h s (Q : unit -> d127 -> list item -> Prop) : on s ->
  (forall b v x, v = h_xfer H (unparse h ++ [HSelect true; HXfer 1 b]) 0 -> is_byte v ->
     mosi x = [129; u8 (Z.lor (Z.land v (Z.lnot 7)) mode)] -> Q tt s [Tr [(1, b); (0, v)]; Tr x]) -> wp (set_op_mode H mode) h s Q.
Proof.
  intros Ho HQ. unfold set_op_mode. apply wp_bind, wp_read_reg; [exact Ho|]. intros b v Hv Bv. apply wp_write_reg; [exact Ho|]. intros x Hx. apply (HQ b v x Hv Bv Hx).
Qed.
End D127.
