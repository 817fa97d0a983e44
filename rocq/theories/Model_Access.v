(** * Getters, defaults and constructors that only copy fields. *)
From Verif Require Import Base Model_Types Model_Bitflags Model_Intervals Model_Event.

(** ** src/types/connection_interval.rs *)

(** src/types/connection_interval.rs:18-21, [ConnectionInterval::interval]. *)
Definition ci_get_interval (ci : conn_interval) : duration * duration := ci_interval ci.
(** src/types/connection_interval.rs:23-26, [ConnectionInterval::conn_latency]. *)
Definition ci_get_conn_latency (ci : conn_interval) : N := ci_latency ci.
(** src/types/connection_interval.rs:28-31, [ConnectionInterval::supervision_timeout]. *)
Definition ci_get_supervision_timeout (ci : conn_interval) : duration := ci_timeout ci.

(** src/types/connection_interval.rs:107, derived [Default] of the builder: each
    [Option] is [None]. *)
Definition cib_default : ci_builder :=
  {| b_interval := None; b_latency := None; b_timeout := None |}.

(** src/types/connection_interval.rs:329-332, [FixedConnectionInterval::interval]. *)
Definition fci_get_interval (ci : fixed_conn_interval) : duration := fci_interval ci.
(** src/types/connection_interval.rs:334-337, [FixedConnectionInterval::conn_latency]. *)
Definition fci_get_conn_latency (ci : fixed_conn_interval) : N := fci_latency ci.
(** src/types/connection_interval.rs:339-342,
    [FixedConnectionInterval::supervision_timeout]. *)
Definition fci_get_supervision_timeout (ci : fixed_conn_interval) : duration := fci_timeout ci.

(** ** src/types/advertising_interval.rs *)

(** src/types/advertising_interval.rs:74-76, [struct AdvertisingIntervalBuilder]. *)
Record ai_builder := { aib_advertising_type : advertising_type }.
(** src/types/advertising_interval.rs:30-34, [AdvertisingInterval::for_type]. *)
Definition ai_for_type (t : advertising_type) : ai_builder := {| aib_advertising_type := t |}.
(** src/types/advertising_interval.rs:91-124 and 135-144: the methods of the
    builder, which is only read through [self.advertising_type]. *)
Definition aib_with_range (f : features) (b : ai_builder) (min max : duration) :=
  ai_with_range f (aib_advertising_type b) min max.
Definition aib_build (b : ai_builder) := ai_build (aib_advertising_type b).
(** src/types/advertising_interval.rs:68-70, [AdvertisingInterval::advertising_type]. *)
Definition ai_get_advertising_type (a : advertising_interval) : advertising_type := ai_type a.

(** ** src/types/scan_window.rs *)

(** src/types/scan_window.rs:22-24, [ScanWindow::interval]. *)
Definition sw_get_interval (s : scan_window) : duration := sw_interval s.
(** src/types/scan_window.rs:27-29, [ScanWindow::window]. *)
Definition sw_get_window (s : scan_window) : duration := sw_window s.
(** src/types/scan_window.rs:13, derived [PartialEq] of [ScanWindow]. *)
Definition sw_eqb (a b : scan_window) : bool :=
  (sw_interval a =? sw_interval b) && (sw_window a =? sw_window b).

(** ** src/host/mod.rs *)

(** src/host/mod.rs:1838-1842, [Default for Channels]: [Channels::all()]. *)
Definition channels_default (f : features) : N := bf_all f Channels.
