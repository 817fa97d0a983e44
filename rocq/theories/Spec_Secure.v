(** * Encryption between two hosts (specification). *)
From Verif Require Import Base Model_Types Model_Intervals Model_EventBase Model_Command Model_Event Model_Host
  Spec_Wire Spec_Errors Spec_Host Spec_Link Spec_Split Spec_Conform Spec_Follow Spec_Credit Spec_Facts Spec_Data Spec_Window Spec_Keys.
Open Scope list_scope.
Open Scope N_scope.

(** ** The two controllers

    LE Start Encryption (Vol 2, Part E, 7.8.24): after the header the handle (2
    octets), the random number (8), the diversifier (2) and the key (16). *)
Definition is_start (w : N * list N) : bool :=
  (fst w =? 0x01) && (at_ (snd w) 0 =? 0x19) && (at_ (snd w) 1 =? 0x20).
(** In all the packets here the handle comes after three octets. *)
Definition on (handle : N) (w : N * list N) : bool := u16_le (snd w) 3 =? handle.
Definition starts (handle : N) (d : list device_step) := filter (fun w => is_start w && on handle w) (taken d).
Definition requests (handle : N) (d : list device_step) := filter (fun w => is_key_request w && on handle w) (sent_by d).
Definition replies (handle : N) (d : list device_step) := filter (fun w => is_key_reply w && on handle w) (taken d).

(** The random number and the diversifier, in LE Start Encryption and in LE Long Term
    Key Request.  The peripheral asks for a key with those that the central was given
    (Vol 6, Part B, 5.1.3), some of them perhaps later. *)
Definition number_and_diversifier (w : N * list N) : list N := firstn 10 (skipn 5 (snd w)).
Definition over_the_air (handle : N) (d : list device_step) (handle' : N) (d' : list device_step) : Prop :=
  exists later, map number_and_diversifier (starts handle d) = map number_and_diversifier (requests handle' d') ++ later.

(** The link becomes encrypted if the two have the same key. *)
Definition same_key (start reply : N * list N) : Prop :=
  at_ (snd reply) 0 = 0x1A /\ skipn 5 (snd reply) = skipn 15 (snd start).

(** ** The central's host *)
Definition start_calls {V : vendor} {E : Type} (handle : N) (log : list (data_operation V * @data_report V E))
    : list encryption_parameters :=
  flat_map (fun x => match x with
                     | (Order (CLeStartEncryption q), Ordered r) =>
                         if succeeded r && (enc_conn_handle q =? handle) then [q] else []
                     | _ => []
                     end) log.
