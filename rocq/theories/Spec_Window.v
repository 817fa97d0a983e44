(** * Data buffers of a controller, and a host that counts (specification). *)
From Verif Require Import Base Model_Types Model_Intervals Model_EventBase Model_Command Model_Event Model_Host
  Spec_Wire Spec_Errors Spec_Host Spec_Link Spec_Conform Spec_Follow Spec_Credit Spec_Facts Spec_Data.
Open Scope list_scope.
Open Scope N_scope.

(** ** Data packets

    The lower 12 bits of the first two octets are the handle, then come flags and
    the length (Vol 2, Part E, 5.4.2). *)
Definition is_data (w : N * list N) : bool := fst w =? 0x02.
Definition handle_of (w : N * list N) : N := u16_le (snd w) 0 mod 0x1000.
Definition data_size (w : N * list N) : N := u16_le (snd w) 2.
(** What a host sends: commands and data. *)
Definition outgoing_packet (w : N * list N) : Prop :=
  data_packet w
  \/ exists a b params, w = (0x01, [a; b; N.of_nat (length params)] ++ params) /\ N.of_nat (length params) < 0x100.

(** Packets are told apart only by their connection here, so a list of handles says
    which packets there are.  [n] of the packets of connection [c] are removed; all are. *)
Fixpoint without (n : nat) (c : N) (l : list N) : list N :=
  match l with
  | [] => []
  | x :: l =>
      if x =? c then match n with O => x :: l | S n => without n c l end
      else x :: without n c l
  end.
Definition without_all (c : N) (l : list N) : list N := filter (fun x => negb (x =? c)) l.
Definition packets_of (c : N) (l : list N) : nat := count_occ N.eq_dec l c.

(** ** The controller

    It takes packets from the host and sends packets to it.  Data for a connection
    it has stay in its memory until it tells that they are completed (Number Of
    Completed Packets) or that the connection has ended (Disconnection Complete);
    data for a connection that has ended are dropped. *)
Inductive device_step := Takes (w : N * list N) | Sends (w : N * list N).
Record memory := { held : list N; ended : list N }.
Fixpoint pairs_from (n : nat) (p : list N) : list (N * N) :=
  match n with
  | O => []
  | S n => (u16_le p 0, u16_le p 2) :: pairs_from n (skipn 4 p)
  end.
Definition pairs_in (pkt : list N) : list (N * N) :=
  if at_ pkt 0 =? 0x13 then pairs_from (N.to_nat (at_ pkt 2)) (skipn 3 pkt) else [].
Definition happens (m : memory) (x : device_step) : memory :=
  match x with
  | Takes w =>
      if is_data w && negb (existsb (N.eqb (handle_of w)) (ended m))
      then {| held := handle_of w :: held m; ended := ended m |} else m
  | Sends w =>
      if fst w =? 0x04 then
        let pkt := snd w in
        let left := fold_left (fun l q => without (N.to_nat (snd q)) (fst q) l) (pairs_in pkt) (held m) in
        if (at_ pkt 0 =? 0x05) && (at_ pkt 2 =? 0x00)
        then {| held := without_all (u16_le pkt 3) left; ended := u16_le pkt 3 :: ended m |}
        else {| held := left; ended := ended m |}
      else m
  end.
Definition memory_after (d : list device_step) : memory := fold_left happens d {| held := []; ended := [] |}.
Definition taken (d : list device_step) : list (N * list N) :=
  flat_map (fun x => match x with Takes w => [w] | Sends _ => [] end) d.
Definition sent_by (d : list device_step) : list (N * list N) :=
  flat_map (fun x => match x with Takes _ => [] | Sends w => [w] end) d.

(** It conforms to the specification; completes only what it has; when asked it
    tells the true size and number of its buffers.  (A history ends with a reset.) *)
Definition honest (F : features) (size number : N) (d : list device_step) : Prop :=
  Forall outgoing_packet (taken d)
  /\ forall before w after, d = before ++ Sends w :: after ->
     incoming_packet w
     /\ (fst w = 0x04 ->
         conforming_packet F (snd w)
         /\ (forall c, completed c (snd w) <= N.of_nat (packets_of c (held (memory_after before))))
         /\ (forall a b, In (Buffers a b) (told F (snd w)) -> a = size /\ b = number)).

(** ** The host

    It keeps account of the data packets it has sent: without those that, by the
    events it has read, are completed or belong to a connection that has ended. *)
Section Host.
Context {V : vendor} {E : Type}.
Definition events_got (log : list (data_operation V * @data_report V E)) : list (event V) :=
  flat_map (fun a => match a with Reported (Ok (PEvent ev)) => [ev] | _ => [] end) (got V log).
Definition data_sent (log : list (data_operation V * @data_report V E)) : list N :=
  map handle_of (filter is_data (put_out V log)).
Definition pairs_read (ev : event V) (l : list completed_packets_pair) : Prop :=
  match ev with
  | EvNumberOfCompletedPackets e => iterates (@ncp_next Empty_set e) O l
  | _ => l = []
  end.
Definition outstanding (log : list (data_operation V * @data_report V E)) (out : list N) : Prop :=
  exists ls, Forall2 pairs_read (events_got log) ls
    /\ out = fold_left (fun o f => match f with ConnectionGone c => without_all c o | _ => o end)
               (flat_map noted (events_got log))
               (fold_left (fun o p => without (N.to_nat (cpp_num_completed_packets p)) (cpp_conn_handle p) o)
                  (concat ls) (data_sent log)).

(** The size and number of buffers it was told last. *)
Definition limits (log : list (data_operation V * @data_report V E)) : option (N * N) :=
  fold_left (fun o f => match f with Buffers a b => Some (a, b) | _ => o end) (flat_map noted (events_got log)) None.

(** It sends data only if it knows the number of buffers and has fewer packets
    outstanding, and no larger ones than the buffers. *)
Definition careful (log : list (data_operation V * @data_report V E)) : Prop :=
  forall before w r after, log = before ++ (Transmit w, r) :: after -> is_data w = true ->
  exists out size number, outstanding before out /\ limits before = Some (size, number)
    /\ N.of_nat (length out) < number /\ data_size w <= size.
End Host.
