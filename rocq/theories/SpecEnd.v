(** SpecEnd.v -- from the application to the network server and back, through the stack,
    a driver, the bus and the chip. *)
From Verif Require Export SpecLink SpecNet.

(** The server passes frames of MType 000 (join requests) on to the join server, 4.2.1 *)
Definition data_up (f : list Z) : bool := negb (at_ f 0 / 32 =? 0).
(** the data frames among what a chip does *)
Definition on_the_air (acts : list act) : list (list Z) := filter data_up (map snd (aired acts)).
(** A gateway can hear what is sent with the LoRaWAN settings of an uplink, close to a
    frequency of the band; [k]: the chip's synthesiser steps are 32 MHz / 2^k. *)
Definition audible (k : Z) (x : modem * list Z) : Prop :=
  exists f dr, 860000000 <= f <= 870000000 /\ carrier k f (fst x) /\ lorawan dr true (fst x).
(** The packets that the driver's read_packet() takes from the chip. SX1261/2: the bytes
    read from the buffer (command 0x1E), where the chip says that the packet starts and as
    many as it says. SX1276: the bytes read from the FIFO (register 0), as many as the
    chip says, with the pointer into the FIFO set to the start of the packet. Anything
    else that is read is no packet. *)
Definition fetched126 (dtr : list rentry) : list (list Z) :=
  flat_map (fun t => match fst (fst t), transcript (snd t) with
    | PRead _, Some its => match answers126 19 its, buffer126 its with
        | [n; off], [(o, d)] => if (o =? off) && (len d =? Z.min n 255) then [d] else []
        | _, _ => []
        end
    | _, _ => []
    end) dtr.
Fixpoint from_start (ptr : Z) (pre its : list item) : bool :=
  match its with
  | [] => true
  | i :: r => match i with
      | Tr x => negb (hd 1 (mosi x) =? 0) || match writes127 13 pre with [p] => p =? ptr | _ => false end
      | _ => true
      end && from_start ptr (pre ++ [i]) r
  end.
Definition fetched127 (dtr : list rentry) : list (list Z) :=
  flat_map (fun t => match fst (fst t), transcript (snd t) with
    | PRead _, Some its => match reads127 16 its, reads127 19 its with
        | [ptr], [n] => if from_start ptr [] its && (len (reads127 0 its) =? Z.min 255 n) then [reads127 0 its] else []
        | _, _ => []
        end
    | _, _ => []
    end) dtr.
