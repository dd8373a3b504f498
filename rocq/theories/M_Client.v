(** Model of the rest of /repo/examples/bgpdumper.rs: the thread that sends keepalives and the parameters [main] opens the
    session with. Time is counted in whole seconds from the first keepalive; writing to the stream takes none. A failing
    write ends the thread and is not modelled. *)
From Verif Require Import Base M_Util M_Cap M_Open M_Session.

(** bgpdumper.rs:65-70: an array of 19 octets 255, the first 16 copied over, then three octets set *)
Definition send_keepalive : res (list N) :=
  let buf := repeat 255 16 ++ skipn 16 (repeat 255 19) in
  '(_, buf) <- set_idx 16 0 buf ;;
  '(_, buf) <- set_idx 17 19 buf ;;
  '(_, buf) <- set_idx 18 4 buf ;;
  Ok buf.
(** bgpdumper.rs:78: [Duration::new((hold_time / 3) as u64, 0)] *)
Definition keepalive_sleep (p : params) : N := sp_hold p / 3.
(** bgpdumper.rs:79-84: the loop after [n] rounds: the time, and when each keepalive was sent with its octets, newest first *)
Fixpoint keepalive_loop (p : params) (n : nat) : res (N * list (N * list N)) :=
  match n with
  | O => Ok (0, [])
  | S n =>
    '(now, log) <- keepalive_loop p n ;;
    b <- send_keepalive ;;
    Ok (now + keepalive_sleep p, (now, b) :: log)
  end.
(** bgpdumper.rs:164-185: what [main] opens a session to AS [asn] with *)
Definition main_params (asn : N) : params :=
  params_new asn 180 ModeV4 (ip4_new 1 0 0 0)
    [CapMP SafiIPv4u; CapMP SafiIPv4m; CapMP SafiIPv4lu; CapMP SafiIPv6lu; CapMP SafiVPNv4u; CapMP SafiVPNv4m;
     CapMP SafiVPNv6u; CapMP SafiVPNv6m; CapMP SafiIPv4mvpn; CapMP SafiVPLS; CapRR; CapASN32 asn].
