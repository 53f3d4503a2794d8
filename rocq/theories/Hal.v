(** Hal.v -- the radio HAL as the two drivers see it (struct radio_hal,
    include/uwan/stack.h:124-133). *)
From Verif Require Export Types.

(** HAL calls. [HXfer out inp]: spi_xfer(out) returned inp. [HWaitBusy] is the
    loop while(hal->is_busy()) of src/device/sx126x.c:97-100; that the chip
    eventually releases BUSY is an assumption. [HUser] is the registered event
    handler being called. *)
Inductive hev :=
| HReset (on : bool)
| HSelect (on : bool)
| HXfer (out inp : Z)
| HDelay (us : Z)
| HWaitBusy
| HIoInit
| HIoDeinit
| HAnt (is_rx : bool)
| HUser (mask : Z).

(** Which optional HAL pointers are non-NULL (include/uwan/stack.h:130-132). *)
Record hal_opts := Mk_hal_opts { has_io_init : bool; has_io_deinit : bool; has_ant : bool }.

(** The answer of spi_xfer, from everything that happened on the HAL so far and
    the byte sent; and the treatment of (1 << 31), see [e_strict_shl]. *)
Record henv := Mk_henv {
  h_xfer : list hev -> Z -> Z;
  h_strict_shl : bool
}.
Definition henv_ok (H : henv) : Prop := forall h o, 0 <= h_xfer H h o < 256.

Section Hal.
  Context {S : Type}.
  Definition xfer (H : henv) (out : Z) : M S hev Z :=
    query (fun h => h_xfer H h out) (HXfer out).
  (** for (i = 0; i < size; i++) hal->spi_xfer(buf[i]) *)
  Fixpoint xfer_out (H : henv) (bs : list Z) : M S hev unit :=
    match bs with
    | [] => ret tt
    | b :: bs' => xfer H b ;;; xfer_out H bs'
    end.
  (** for (i = 0; i < size; i++) buf[i] = hal->spi_xfer(fill) *)
  Fixpoint xfer_in (H : henv) (fill : Z) (n : nat) : M S hev (list Z) :=
    match n with
    | O => ret []
    | Datatypes.S n' => b <- xfer H fill ;; bs <- xfer_in H fill n' ;; ret (b :: bs)
    end.
End Hal.
