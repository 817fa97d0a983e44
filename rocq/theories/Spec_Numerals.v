(** * Reading the numbers in a text (specification). *)
From Verif Require Import Base Model_Types Model_Event.
From Coq Require Import String Ascii.
Open Scope N_scope.
Open Scope list_scope.

(** The value of a digit: ["0"] to ["9"], then ["A"], ["B"], ... up to the base. *)
Definition digit_value (base : N) (c : ascii) : option N :=
  let n := N_of_ascii c in
  let d := if (48 <=? n) && (n <=? 57) then n - 48
           else if 65 <=? n then n - 55 else base in
  if d <? base then Some d else None.

(** The numbers written in a text, in order: the longest runs of digits.
    [started] is the value of the digits just before the text. *)
Definition finished (started : option N) : list N :=
  match started with Some v => [v] | None => [] end.
Fixpoint numbers_after (base : N) (started : option N) (text : string) : list N :=
  match text with
  | EmptyString => finished started
  | String c rest =>
      match digit_value base c with
      | Some d =>
          let v := match started with Some v => v | None => 0 end in
          numbers_after base (Some (base * v + d)) rest
      | None => finished started ++ numbers_after base None rest
      end
  end.
Definition numbers (base : N) (text : string) : list N := numbers_after base None text.

(** The numbers of an entry of an event, in the order of its fields. *)
Definition pair_numbers (p : completed_packets_pair) : list N :=
  [cpp_conn_handle p; cpp_num_completed_packets p].
Definition address_numbers (a : bd_addr_type) : list N :=
  match a with BdPublic x => x | BdRandom x => x end.
Definition advertisement_numbers (a : le_advertisement) : list N :=
  address_numbers (la_address a) ++ la_data a
  ++ match la_rssi a with Some z => [Z.to_N (Z.abs z)] | None => [] end.
