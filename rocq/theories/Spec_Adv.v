(** * Advertising data (specification).

    The AD structure format (Vol 3, Part C, 11) and the assigned type codes. *)
From Verif Require Import Base Model_Types Model_Intervals Spec_Wire.

Definition ad_code (a : advertisement) : N :=
  match a with
  | CompleteLocalName _ => 0x09
  | ServiceData16BitUuid _ _ => 0x16
  | ServiceData32BitUuid _ _ => 0x20
  | ServiceData128BitUuid _ _ => 0x21
  | ManufacturerSpecificData _ _ => 0xFF
  end.
Definition ad_content (a : advertisement) : list N :=
  match a with
  | CompleteLocalName name => name
  | ServiceData16BitUuid u data => le 2 u ++ data
  | ServiceData32BitUuid u data => le 4 u ++ data
  | ServiceData128BitUuid u data => le 16 u ++ data
  | ManufacturerSpecificData u data => le 2 u ++ data
  end.

(** The argument types. *)
Definition ad_typed (a : advertisement) : Prop :=
  match a with
  | CompleteLocalName name => bytes name
  | ServiceData16BitUuid u data => u < 2 ^ 16 /\ bytes data
  | ServiceData32BitUuid u data => u < 2 ^ 32 /\ bytes data
  | ServiceData128BitUuid u data => u < 2 ^ 128 /\ bytes data
  | ManufacturerSpecificData u data => u < 2 ^ 16 /\ bytes data
  end.

(** An AD structure: length of the rest, type, content.  The length is one
    octet: a longer structure does not fit the format. *)
Definition ad_structure (a : advertisement) : list N :=
  [N.of_nat (1 + length (ad_content a))] ++ [ad_code a] ++ ad_content a.
Definition ad_fits (a : advertisement) : Prop := (length (ad_content a) <= 254)%nat.

(** A parser of AD structures.  A length of zero ends the data early. *)
Fixpoint parse_structures (fuel : nat) (l : list N) : option (list (N * list N)) :=
  match fuel, l with
  | _, [] => Some []
  | O, _ => None
  | S fuel, n :: rest =>
      if n =? 0 then Some [] else
      if N.of_nat (length rest) <? n then None else
      match firstn (N.to_nat n) rest with
      | [] => None
      | t :: content =>
          match parse_structures fuel (skipn (N.to_nat n) rest) with
          | Some more => Some ((t, content) :: more)
          | None => None
          end
      end
  end.
Definition parse_ad (l : list N) : option (list (N * list N)) := parse_structures (length l) l.

(** Reading a structure as one of the advertisements of the API. *)
Definition number (l : list N) : N := fold_right (fun b acc => b + 256 * acc) 0 l.
Definition interpret (s : N * list N) : option advertisement :=
  let (t, c) := s in
  if t =? 0x09 then Some (CompleteLocalName c)
  else if t =? 0x16 then Some (ServiceData16BitUuid (number (firstn 2 c)) (skipn 2 c))
  else if t =? 0x20 then Some (ServiceData32BitUuid (number (firstn 4 c)) (skipn 4 c))
  else if t =? 0x21 then Some (ServiceData128BitUuid (number (firstn 16 c)) (skipn 16 c))
  else if t =? 0xFF then Some (ManufacturerSpecificData (number (firstn 2 c)) (skipn 2 c))
  else None.

(** A program that writes several structures one after another:
    [n += ad.copy_into_slice(&mut buf[n..])]. *)
Fixpoint write_ads (ads : list advertisement) (buf : list N) : outcome Empty_set (list N * nat) :=
  match ads with
  | [] => Ok (buf, 0%nat)
  | a :: ads =>
      let! r := ad_copy_into_slice a buf in
      let (buf, n) := r : list N * nat in
      let! r' := write_ads ads (skipn n buf) in
      let (tail, m) := r' : list N * nat in
      Ok (firstn n buf ++ tail, (n + m)%nat)
  end.
