(** * A vendor extension and feature selections to test the theorems with.

    The vendor is like the one of the tests of the crate (tests/vendor): it
    accepts the statuses 0x45 and 0x50 and nothing else. *)
From Verif Require Import Base Model_Types Model_EventBase Spec_Errors Spec_Report.

Definition F41 : features := {| version_4_2 := false; version_5_0 := false |}.
Definition F42 : features := {| version_4_2 := true; version_5_0 := false |}.
Definition F50 : features := {| version_4_2 := false; version_5_0 := true |}.

Definition test_vendor : vendor :=
  {| VStatus := N; VEvent := list N; VReturn := list N; VError := N;
     vstatus_try_from := fun b => if (b =? 0x45) || (b =? 0x50) then Ok b else Err b;
     vstatus_into := fun b => b;
     vevent_new := fun p => match p with [] => Err (EVendor 1) | _ => Ok p end;
     vreturn_new := fun p => match p with [_; _; _] => Err (EVendor 2) | _ => Ok p end |}.

Lemma test_vendor_total : vendor_total test_vendor.
Proof.
  repeat split; cbn.
  - intros b. destruct (_ || _)%bool; discriminate.
  - intros [|]; discriminate.
  - intros [|? [|? [|? [|]]]]; discriminate.
Qed.

Lemma test_vendor_no_unknown_event : vendor_no_unknown_event test_vendor.
Proof.
  split; cbn; intros p x.
  - destruct p; discriminate.
  - destruct p as [|? [|? [|? [|]]]]; discriminate.
Qed.
