(** * Lost and extra bytes (specification). *)
From Verif Require Import Base Model_Types Model_EventBase Model_Event Model_Host Spec_Wire Spec_Errors Spec_Link.
Open Scope list_scope.

(** The byte at [i] does not arrive; an extra byte arrives before the byte at [i]. *)
Definition lost (i : nat) (l : list N) : list N := firstn i l ++ skipn (S i) l.
Definition extra (i : nat) (b : N) (l : list N) : list N := firstn i l ++ b :: skipn i l.

(** What arrives if [broken] comes instead of the frame of one packet among others. *)
Definition frames_around (before : list (list N)) (broken : list N) (after : list (list N)) : list N :=
  flat_map uart_frame before ++ broken ++ flat_map uart_frame after.
Definition packets_around (before : list (list N)) (broken : list N) (after : list (list N)) : list N :=
  concat before ++ broken ++ concat after.

(** The last byte of a packet, and all others. *)
Definition last_byte (p : list N) : N := last p 0.
