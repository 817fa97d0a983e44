(** * Damaged packets (specification). *)
From Verif Require Import Base Model_Types Model_EventBase Model_Event Model_Host Spec_Wire Spec_Errors Spec_Link.

(** The byte at [i] arrives as [b]. *)
Definition damaged (i : nat) (b : N) (l : list N) : list N := firstn i l ++ b :: skipn (S i) l.

(** What arrives over a UART and over an event link when a byte of one packet
    among others is damaged. *)
Definition damaged_frames (before : list (list N)) (i : nat) (b : N) (p : list N) (after : list (list N))
    : list N :=
  flat_map uart_frame before ++ damaged i b (uart_frame p) ++ flat_map uart_frame after.
Definition damaged_packets (before : list (list N)) (i : nat) (b : N) (p : list N) (after : list (list N))
    : list N :=
  concat before ++ damaged i b p ++ concat after.
