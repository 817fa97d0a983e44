(** * Hosts connected to each other (specification). *)
From Verif Require Import Base Model_Types Model_Intervals Model_EventBase Model_Command Model_Event Model_Host
  Spec_Wire Spec_Errors Spec_Host Spec_Link Spec_Split Spec_Conform Spec_Pass Spec_Follow.
Open Scope list_scope.
Open Scope N_scope.

(** ** The network

    Devices have numbers.  A connection has two ends, and each controller has
    its own handle for it. *)
Record ends := { e_central : N; e_central_handle : N; e_peripheral : N; e_peripheral_handle : N }.
Record link := { l_ends : ends; l_interval : N; l_latency : N; l_timeout : N; l_encrypted : bool }.
Definition same_ends (a b : ends) : bool :=
  (e_central a =? e_central b) && (e_central_handle a =? e_central_handle b)
  && (e_peripheral a =? e_peripheral b) && (e_peripheral_handle a =? e_peripheral_handle b).

(** What happens in the network. *)
Inductive occurrence :=
| Made (e : ends) (interval latency timeout accuracy : N)
| Renewed (e : ends) (interval latency timeout : N)
| Secured (e : ends) (on : bool)
| Ended (e : ends) (central_reason peripheral_reason : N).

Definition on_link (e : ends) (f : link -> link) (ls : list link) : list link :=
  map (fun l => if same_ends (l_ends l) e then f l else l) ls.
Definition occur (ls : list link) (o : occurrence) : list link :=
  match o with
  | Made e interval latency timeout _ =>
      {| l_ends := e; l_interval := interval; l_latency := latency; l_timeout := timeout;
         l_encrypted := false |} :: ls
  | Renewed e interval latency timeout =>
      on_link e (fun l => {| l_ends := e; l_interval := interval; l_latency := latency;
                             l_timeout := timeout; l_encrypted := l_encrypted l |}) ls
  | Secured e on =>
      on_link e (fun l => {| l_ends := e; l_interval := l_interval l; l_latency := l_latency l;
                             l_timeout := l_timeout l; l_encrypted := on |}) ls
  | Ended e _ _ => filter (fun l => negb (same_ends (l_ends l) e)) ls
  end.

(** A handle names at most one connection of a device at a time, only open
    connections change or end, and the parameters are those that the Bluetooth
    specification allows. *)
Definition uses (l : link) (device handle : N) : Prop :=
  (e_central (l_ends l) = device /\ e_central_handle (l_ends l) = handle)
  \/ (e_peripheral (l_ends l) = device /\ e_peripheral_handle (l_ends l) = handle).
Definition free (ls : list link) (device handle : N) : Prop := forall l, In l ls -> ~ uses l device handle.
Definition is_open (ls : list link) (e : ends) : Prop := In e (map l_ends ls).
Definition may_occur (ls : list link) (o : occurrence) : Prop :=
  match o with
  | Made e interval latency timeout accuracy =>
      e_central e <> e_peripheral e
      /\ free ls (e_central e) (e_central_handle e) /\ free ls (e_peripheral e) (e_peripheral_handle e)
      /\ parameter_ranges (e_central_handle e) interval latency timeout
      /\ e_peripheral_handle e <= 0x0EFF /\ accuracy <= 7
  | Renewed e interval latency timeout =>
      is_open ls e /\ parameter_ranges (e_central_handle e) interval latency timeout
  | Secured e _ => is_open ls e
  | Ended e r r' => is_open ls e /\ r <= 0x40 /\ r' <= 0x40
  end.
Fixpoint may_all_occur (ls : list link) (os : list occurrence) : Prop :=
  match os with [] => True | o :: os => may_occur ls o /\ may_all_occur (occur ls o) os end.

(** ** What the controllers tell their hosts

    [address d]: the address of the device [d]: its kind and six octets. *)
Definition address_book (address : N -> N * list N) : Prop :=
  forall d, fst (address d) <= 1 /\ length (snd (address d)) = 6%nat /\ bytes (snd (address d)).

(** The number of the central's or the peripheral's end, if the device has it. *)
Definition for_end {A} (device : N) (e : ends) (central peripheral : A) : list A :=
  if e_central e =? device then [central] else if e_peripheral e =? device then [peripheral] else [].

Definition packets_for (address : N -> N * list N) (device : N) (o : occurrence) : list (list N) :=
  match o with
  | Made e interval latency timeout accuracy =>
      let made h role peer acc :=
        framed 0x3E ([0x01; 0x00]
          ++ connection_body h role (fst (address peer)) interval latency timeout acc (snd (address peer))) in
      for_end device e (made (e_central_handle e) 0 (e_peripheral e) 0)
                       (made (e_peripheral_handle e) 1 (e_central e) accuracy)
  | Renewed e interval latency timeout =>
      let renewed h := framed 0x3E ([0x03; 0x00] ++ update_body h interval latency timeout) in
      for_end device e (renewed (e_central_handle e)) (renewed (e_peripheral_handle e))
  | Secured e on =>
      let secured h := framed 0x08 ([0x00] ++ le 2 h ++ [if on then 1 else 0]) in
      for_end device e (secured (e_central_handle e)) (secured (e_peripheral_handle e))
  | Ended e r r' =>
      let ended h reason := framed 0x05 ([0x00] ++ le 2 h ++ [reason]) in
      for_end device e (ended (e_central_handle e) r) (ended (e_peripheral_handle e) r')
  end.

(** The connections of a device, as its controller describes them. *)
Definition connections_of (address : N -> N * list N) (device : N) (ls : list link) : list connection :=
  let seen l h role peer :=
    {| c_handle := h;
       c_kind := LowEnergy role (fst (address peer) :: snd (address peer)) (l_interval l) (l_latency l)
                   (l_timeout l);
       c_encrypted := l_encrypted l |} in
  flat_map (fun l => let e := l_ends l in
    for_end device e (seen l (e_central_handle e) 0 (e_peripheral e))
                     (seen l (e_peripheral_handle e) 1 (e_central e))) ls.

(** Connections and changes with a supervision timeout of 100 ms are not noticed
    by the hosts (C83). *)
Definition noticed (o : occurrence) : bool :=
  match o with
  | Made _ _ _ timeout _ | Renewed _ _ _ timeout => negb (timeout =? 10)
  | _ => true
  end.

(** ** The hosts

    A host has read the packets [ps] and nothing else, as the events [evs]: in
    some session over one or the other transport, with some controller that keeps
    the contract. *)
Definition heard (F : features) (V : vendor) (ps : list (list N)) (evs : list (event V)) : Prop :=
  exists (St E : Type) (C : controller St E) (h : history St) (os : list (operation V)) (s : St)
         (more : list N),
    contract C h /\ Forall (typed_operation F) os /\ possible h s
    /\ ((let (s', log) := session F V C os s in
         pending h s s' = flat_map uart_frame ps ++ more
         /\ consumed h s' = (consumed h s + length (flat_map uart_frame ps))%nat
         /\ evs = events_read log)
        \/ (let (s', log) := split_session F V C os s in
            pending h s s' = concat ps ++ more
            /\ consumed h s' = (consumed h s + length (concat ps))%nat
            /\ evs = split_events_read log)).

(** What the central and the peripheral of a connection know about it. *)
Definition agree (address : N -> N * list N) (l : link) (k k' : known) : Prop :=
  exists peer peer' ci,
    k = {| k_handle := e_central_handle (l_ends l); k_kind := KnownLe Central peer ci;
           k_encrypted := l_encrypted l |}
    /\ k' = {| k_handle := e_peripheral_handle (l_ends l); k_kind := KnownLe Peripheral peer' ci;
               k_encrypted := l_encrypted l |}
    /\ address_bytes peer = fst (address (e_peripheral (l_ends l))) :: snd (address (e_peripheral (l_ends l)))
    /\ address_bytes peer' = fst (address (e_central (l_ends l))) :: snd (address (e_central (l_ends l))).
