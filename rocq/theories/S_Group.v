(** Capabilities in the optional parameters of OPEN (RFC 5492): each parameter of type 2 holds any number of them. *)
From Verif Require Import Base M_Util S_Wire M_Cap M_Open.

(** a capability: code and data *)
Definition tlv := (N * list N)%type.
Definition tlv_wire (t : tlv) : list N := fst t :: N.of_nat (length (snd t)) :: snd t.
Definition tlvs_wire (g : list tlv) : list N := flat_map tlv_wire g.
Definition params_wire (gs : list (list tlv)) : list N :=
  flat_map (fun g => 2 :: N.of_nat (length (tlvs_wire g)) :: tlvs_wire g) gs.
(** everything has room in its octet of length *)
Definition groups_ok (gs : list (list tlv)) : Prop :=
  Forall (fun g => (length (tlvs_wire g) < 256)%nat) gs.
(** an OPEN: version, AS, hold time, router id, length of the parameters, parameters *)
Definition open_octets (asn hold rid ol : N) (ps : list N) : list N :=
  [4] ++ be_bytes 2 asn ++ be_bytes 2 hold ++ be_bytes 4 rid ++ [ol] ++ ps.

(** what the capabilities are, one by one: those of unknown codes are passed over, the first bad one is an error *)
Fixpoint known (g : list tlv) : res (list bgpcap) :=
  match g with
  | [] => Ok []
  | (c, d) :: g' => o <- from_type_and_data c d ;; v <- known g' ;; Ok (match o with Some x => x :: v | None => v end)
  end.
