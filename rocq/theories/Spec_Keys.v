(** * Requests for keys and their answers (specification). *)
From Verif Require Import Base Model_Types Model_Intervals Model_EventBase Model_Command Model_Event Model_Host
  Spec_Wire Spec_Errors Spec_Host Spec_Link Spec_Split Spec_Conform Spec_Follow Spec_Credit Spec_Facts Spec_Data Spec_Window.
Open Scope list_scope.
Open Scope N_scope.

(** ** The controller: all it sends conforms to the specification. *)
Definition conforming_device (F : features) (d : list device_step) : Prop :=
  Forall outgoing_packet (taken d)
  /\ Forall (fun w => incoming_packet w /\ (fst w = 0x04 -> conforming_packet F (snd w))) (sent_by d).

Section Keys.
(** The key, if there is one, for a connection, a random number and a diversifier. *)
Context (key_for : N -> N -> N -> option (list N)).

(** ** Packets

    LE Long Term Key Request (Vol 2, Part E, 7.7.65.5), and the two commands that
    answer it (7.8.25, 7.8.26). *)
Definition is_key_request (w : N * list N) : bool :=
  (fst w =? 0x04) && (at_ (snd w) 0 =? 0x3E) && (at_ (snd w) 2 =? 0x05).
Definition is_key_reply (w : N * list N) : bool :=
  (fst w =? 0x01) && ((at_ (snd w) 0 =? 0x1A) || (at_ (snd w) 0 =? 0x1B)) && (at_ (snd w) 1 =? 0x20).
Definition key_reply (w : N * list N) : N * list N :=
  let handle := firstn 2 (skipn 3 (snd w)) in
  let random := firstn 8 (skipn 5 (snd w)) in
  let diversifier := firstn 2 (skipn 13 (snd w)) in
  match key_for (number_le handle) (number_le random) (number_le diversifier) with
  | Some key => (0x01, [0x1A; 0x20; 18] ++ handle ++ key)
  | None => (0x01, [0x1B; 0x20; 2] ++ handle)
  end.

(** ** The host *)
Context {V : vendor} {E : Type}.
Definition key_call (ev : event V) : list (command V) :=
  match ev with
  | EvLeLongTermKeyRequest e =>
      match key_for (ltk_conn_handle e) (ltk_random_value e) (ltk_encrypted_diversifier e) with
      | Some key => [CLeLongTermKeyRequestReply (ltk_conn_handle e) key]
      | None => [CLeLongTermKeyRequestNegativeReply (ltk_conn_handle e)]
      end
  | _ => []
  end.
Definition is_key_call (c : command V) : bool :=
  match c with
  | CLeLongTermKeyRequestReply _ _ | CLeLongTermKeyRequestNegativeReply _ => true
  | _ => false
  end.
Definition key_calls (log : list (data_operation V * @data_report V E)) : list (command V) :=
  flat_map (fun x => match x with
                     | (Order c, Ordered r) => if succeeded r && is_key_call c then [c] else []
                     | _ => []
                     end) log.
(** What it has answered are the first of the requests it has read, each once and in
    order.  It may take its time. *)
Definition answers_keys (log : list (data_operation V * @data_report V E)) : Prop :=
  exists later, flat_map key_call (events_got log) = key_calls log ++ later.
End Keys.
