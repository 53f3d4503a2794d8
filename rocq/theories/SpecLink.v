(** SpecLink.v -- the stack and a driver call each other: the stack calls struct
    radio_dev, the driver's interrupt handler calls the stack's (src/stack.c:442, 523,
    src/device/sx126x.c:513-514, src/device/sx127x.c:449-450). *)
From Verif Require Export SpecSys.

(** A call or event of the stack with the driver's entries it comes with. An event of
    the radio is reported by the interrupt handler, which calls the stack's handler
    with the mask of events; the stack then calls the driver. *)
Inductive link1 : entry -> list rentry -> Prop :=
| link1_call o v es ds : (forall m, o <> OIrq m) -> Forall2 served (filter asks_radio es) ds -> link1 (o, v, es) ds
| link1_irq m v es r l ds : In (HUser m) l -> Forall2 served (filter asks_radio es) ds ->
    link1 (OIrq m, v, es) ((PIrq, r, l) :: ds).
(** interrupts without a handler and set_public_network(true) do not reach the stack *)
Definition apart (t : rentry) : Prop :=
  match t with (PIrq, _, l) => forall m, ~ In (HUser m) l | (PPublic true, _, _) => True | _ => False end.
(** The program initialises the driver successfully and from then on uses the stack. *)
Inductive linked : list entry -> list rentry -> Prop :=
| linked_init hal d l : rop_wf (PInit hal d) -> linked [] [(PInit hal d, RvBool true, l)]
| linked_step tr dtr t ds : linked tr dtr -> link1 t ds -> linked (tr ++ [t]) (dtr ++ ds)
| linked_apart tr dtr t : linked tr dtr -> apart t -> linked tr (dtr ++ [t]).
(** the HAL calls of some entries *)
Definition bus (dtr : list rentry) : list hev := flat_map snd dtr.

(** ** The radio's events and packets, as they come over the bus *)
(** [m]: the mask of the flags read from the chip, all of which are cleared (SX1261/2) or
    of which the known ones are cleared (SX1276) *)
Definition signals126 (irq : list item) (m : Z) : Prop := exists x y, let f := 256 * x + y in
  is_byte x /\ is_byte y /\ answers126 18 irq = [x; y] /\ cleared126 irq = [f] /\ m = mask (bit f 0) (bit f 1) (bit f 9) (bit f 6).
Definition signals127 (irq : list item) (m : Z) : Prop := exists f g,
  is_byte f /\ reads127 18 irq = [f] /\ writes127 18 irq = [g] /\ (forall i, 0 <= i < 8 -> bit g i = bit f i && ((i =? 3) || (5 <=? i))) /\
  m = mask (bit f 3) (bit f 6) (bit f 7) (bit f 5).
(** [p]: the packet in the chip, read once: where it starts, its length, its bytes, its
    signal strength; [off]: the offset of the RSSI on the SX1276, see C53 *)
Definition packet126 (its : list item) (p : rxpkt) : Prop := exists n off raw snr z,
  answers126 19 its = [n; off] /\ buffer126 its = [(off, rx_data p)] /\ len (rx_data p) = Z.min n 255 /\
  answers126 20 its = [raw; snr; z] /\ rx_rssi p = Z.quot (- raw) 2 /\ rx_snr p = Z.quot (s8 snr) 4.
Definition packet127 (off : Z) (its : list item) (p : rxpkt) : Prop := exists ptr n raw snr,
  reads127 16 its = [ptr] /\ reads127 19 its = [n] /\ reads127 0 its = rx_data p /\ len (rx_data p) = Z.min 255 n /\
  reads127 26 its = [raw] /\ reads127 25 its = [snr] /\ rx_rssi p = off + raw /\ rx_snr p = Z.quot (s8 snr) 4 /\
  (* the pointer into the buffer is set to the start before a byte is read *)
  (forall pre x post, its = pre ++ Tr x :: post -> hd 1 (mosi x) = 0 -> writes127 13 pre = [ptr]).
(** The application is told that a frame [d] has been accepted. *)
Definition accepted (E : env) (w w' : world) (p : rxpkt) (t : Z) (view : dlview) : Prop :=
  let d := rx_data p in
  joining w = true /\ t = MTYPE_JOIN_ACCEPT /\ ja_valid E (app_key w) d \/
  joining w = false /\ t = at_ d 0 / 32 /\ authentic E w d (f_cnt_down (ses w')) /\
    view = fr_view E w d (f_cnt_down (ses w')) (rx_rssi p) (rx_snr p).
(** A packet that is a genuine downlink of the session is handed to the application. *)
Definition hands_over (E : env) (w : world) (es : list ev) (p : rxpkt) : Prop := forall cnt confirmed hi fo frm,
  joining w = false -> next_counter (f_cnt_down (ses w)) cnt -> len fo < 16 ->
  rx_data p = downlink_frame (e_aes E) (e_cmac E) (nwk_s_key (ses w)) (app_s_key (ses w)) (dev_addr (ses w)) cnt confirmed hi fo frm ->
  callbacks es = [(ERR_NO, if confirmed then 5 else 3,
    match frm with
    | None => Mk_dlview None 0 0 (rx_rssi p) (rx_snr p)
    | Some (port, data) => Mk_dlview (Some data) (len data) port (rx_rssi p) (rx_snr p)
    end)].
