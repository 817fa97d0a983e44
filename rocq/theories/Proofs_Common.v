(** * Advertising data types. *)
From Verif Require Import Base Model_Intervals Spec_Common Proofs_Base.
From Coq Require Import String.
Open Scope list_scope.
Open Scope N_scope.

Definition entry_eqb (x y : N * string) : bool := ((fst x =? fst y) && String.eqb (snd x) (snd y))%bool.
Lemma entry_eqb_eq x y : entry_eqb x y = true <-> x = y.
Proof.
  destruct x as [a s], y as [b t]. unfold entry_eqb. cbn [fst snd].
  rewrite andb_true_iff, N.eqb_eq, String.eqb_eq. split; [intros [-> ->]; reflexivity|].
  intros H. injection H. auto.
Qed.
Lemma assigned_dec x : In x assigned_types <-> existsb (entry_eqb x) assigned_types = true.
Proof.
  rewrite existsb_exists. split.
  - intros H. exists x. split; [exact H|]. now apply entry_eqb_eq.
  - intros (y & H & E). apply entry_eqb_eq in E. now subst.
Qed.

Lemma assigned_code t :
  In (common_data_type_as_u8 t, type_name t) assigned_types <-> t <> CdtSecurityManagerTkValue.
Proof.
  rewrite assigned_dec. destruct t; vm_compute; split; (discriminate || reflexivity || congruence).
Qed.
Lemma tk_value_code :
  In (common_data_type_as_u8 CdtSecurityManagerTkValue, "Security Manager Out of Band Flags"%string) assigned_types.
Proof. now apply assigned_dec. Qed.
(** The constant with a code. *)
Definition all_types : list common_data_type := [
  CdtFlags;
  CdtIncompleteListOf16BitServiceClassUuids;
  CdtCompleteListOf16BitServiceClassUuids;
  CdtIncompleteListOf32BitServiceClassUuids;
  CdtCompleteListOf32BitServiceClassUuids;
  CdtIncompleteListOf128BitServiceClassUuids;
  CdtCompleteListOf128BitServiceClassUuids;
  CdtShortenedLocalName;
  CdtCompleteLocalName;
  CdtTxPowerLevel;
  CdtClassOfDevice;
  CdtSimplePairingHashC192;
  CdtSimplePairingRandomizerR192;
  CdtDeviceId;
  CdtSecurityManagerTkValue;
  CdtPeripheralConnectionIntervalRange;
  CdtListOf16BitServiceSolicitationUuids;
  CdtListOf128BitServiceSolicitationUuids;
  CdtServiceData16BitUuid;
  CdtPublicTargetAddress;
  CdtRandomTargetAddress;
  CdtAppearance;
  CdtAdvertisingInterval;
  CdtLeBluetoothDeviceAddress;
  CdtLeRole;
  CdtSimplePairingHashC256;
  CdtSimplePairingRandomizerR256;
  CdtListOf32BitServiceSolicitationUuids;
  CdtServiceData32BitUuid;
  CdtServiceData128BitUuid;
  CdtLeSecureConnectionsConfirmationValue;
  CdtLeSecureConnectionsRandomValue;
  CdtUri;
  CdtIndoorPositioning;
  CdtTransportDiscoveryData;
  CdtLeSupportedFeatures;
  CdtChannelMapUpdateIndication;
  CdtPbAdv;
  CdtMeshMessage;
  CdtMeshBeacon;
  CdtBigInfo;
  CdtBroadcastCode;
  CdtResolvableSetIdentifier;
  CdtAdvertisingIntervalLong;
  CdtBroadcastName;
  CdtThreeDInformationData;
  CdtManufacturerSpecificData
].
Definition type_of_code (c : N) : option common_data_type :=
  find (fun t => common_data_type_as_u8 t =? c) all_types.
Lemma type_of_code_ok t : type_of_code (common_data_type_as_u8 t) = Some t.
Proof. now destruct t. Qed.
Lemma codes_distinct t u : common_data_type_as_u8 t = common_data_type_as_u8 u -> t = u.
Proof. intros H. assert (K := type_of_code_ok t). rewrite H, type_of_code_ok in K. congruence. Qed.
Lemma advertisement_assigned a : type_name (ad_get_type a) = advertisement_name a
  /\ forall code, In (code, advertisement_name a) assigned_types <-> code = common_data_type_as_u8 (ad_get_type a).
Proof.
  split; [now destruct a|]. intros code. split.
  - intros H.
    assert (K : In code (map fst (filter (fun x => String.eqb (snd x) (advertisement_name a)) assigned_types))).
    { apply in_map_iff. exists (code, advertisement_name a). split; [reflexivity|].
      apply filter_In. split; [exact H|]. apply String.eqb_refl. }
    clear H. destruct a; vm_compute in K; destruct K as [K|[]]; rewrite <- K; reflexivity.
  - intros ->. apply assigned_dec. destruct a; reflexivity.
Qed.
