(** * Assigned numbers of advertising data types (specification).

    Bluetooth Assigned Numbers, 2.3 "Common Data Types": code and name. *)
From Verif Require Import Base Model_Intervals.
From Coq Require Import String.
Open Scope list_scope.
Open Scope N_scope.

Definition assigned_types : list (N * string) := [
  (0x01, "Flags");
  (0x02, "Incomplete List of 16-bit Service or Service Class UUIDs");
  (0x03, "Complete List of 16-bit Service or Service Class UUIDs");
  (0x04, "Incomplete List of 32-bit Service or Service Class UUIDs");
  (0x05, "Complete List of 32-bit Service or Service Class UUIDs");
  (0x06, "Incomplete List of 128-bit Service or Service Class UUIDs");
  (0x07, "Complete List of 128-bit Service or Service Class UUIDs");
  (0x08, "Shortened Local Name");
  (0x09, "Complete Local Name");
  (0x0A, "Tx Power Level");
  (0x0D, "Class of Device");
  (0x0E, "Simple Pairing Hash C-192");
  (0x0F, "Simple Pairing Randomizer R-192");
  (0x10, "Device ID");
  (0x10, "Security Manager TK Value");
  (0x11, "Security Manager Out of Band Flags");
  (0x12, "Peripheral Connection Interval Range");
  (0x14, "List of 16-bit Service Solicitation UUIDs");
  (0x15, "List of 128-bit Service Solicitation UUIDs");
  (0x16, "Service Data - 16-bit UUID");
  (0x17, "Public Target Address");
  (0x18, "Random Target Address");
  (0x19, "Appearance");
  (0x1A, "Advertising Interval");
  (0x1B, "LE Bluetooth Device Address");
  (0x1C, "LE Role");
  (0x1D, "Simple Pairing Hash C-256");
  (0x1E, "Simple Pairing Randomizer R-256");
  (0x1F, "List of 32-bit Service Solicitation UUIDs");
  (0x20, "Service Data - 32-bit UUID");
  (0x21, "Service Data - 128-bit UUID");
  (0x22, "LE Secure Connections Confirmation Value");
  (0x23, "LE Secure Connections Random Value");
  (0x24, "URI");
  (0x25, "Indoor Positioning");
  (0x26, "Transport Discovery Data");
  (0x27, "LE Supported Features");
  (0x28, "Channel Map Update Indication");
  (0x29, "PB-ADV");
  (0x2A, "Mesh Message");
  (0x2B, "Mesh Beacon");
  (0x2C, "BIGInfo");
  (0x2D, "Broadcast_Code");
  (0x2E, "Resolvable Set Identifier");
  (0x2F, "Advertising Interval - long");
  (0x30, "Broadcast_Name");
  (0x31, "Encrypted Advertising Data");
  (0x32, "Periodic Advertising Response Timing Information");
  (0x34, "Electronic Shelf Label");
  (0x3D, "3D Information Data");
  (0xFF, "Manufacturer Specific Data")
]%string.

(** The type a constant of the API names. *)
Definition type_name (t : common_data_type) : string :=
  match t with
  | CdtFlags => "Flags"
  | CdtIncompleteListOf16BitServiceClassUuids => "Incomplete List of 16-bit Service or Service Class UUIDs"
  | CdtCompleteListOf16BitServiceClassUuids => "Complete List of 16-bit Service or Service Class UUIDs"
  | CdtIncompleteListOf32BitServiceClassUuids => "Incomplete List of 32-bit Service or Service Class UUIDs"
  | CdtCompleteListOf32BitServiceClassUuids => "Complete List of 32-bit Service or Service Class UUIDs"
  | CdtIncompleteListOf128BitServiceClassUuids => "Incomplete List of 128-bit Service or Service Class UUIDs"
  | CdtCompleteListOf128BitServiceClassUuids => "Complete List of 128-bit Service or Service Class UUIDs"
  | CdtShortenedLocalName => "Shortened Local Name"
  | CdtCompleteLocalName => "Complete Local Name"
  | CdtTxPowerLevel => "Tx Power Level"
  | CdtClassOfDevice => "Class of Device"
  | CdtSimplePairingHashC192 => "Simple Pairing Hash C-192"
  | CdtSimplePairingRandomizerR192 => "Simple Pairing Randomizer R-192"
  | CdtDeviceId => "Device ID"
  | CdtSecurityManagerTkValue => "Security Manager TK Value"
  | CdtPeripheralConnectionIntervalRange => "Peripheral Connection Interval Range"
  | CdtListOf16BitServiceSolicitationUuids => "List of 16-bit Service Solicitation UUIDs"
  | CdtListOf128BitServiceSolicitationUuids => "List of 128-bit Service Solicitation UUIDs"
  | CdtServiceData16BitUuid => "Service Data - 16-bit UUID"
  | CdtPublicTargetAddress => "Public Target Address"
  | CdtRandomTargetAddress => "Random Target Address"
  | CdtAppearance => "Appearance"
  | CdtAdvertisingInterval => "Advertising Interval"
  | CdtLeBluetoothDeviceAddress => "LE Bluetooth Device Address"
  | CdtLeRole => "LE Role"
  | CdtSimplePairingHashC256 => "Simple Pairing Hash C-256"
  | CdtSimplePairingRandomizerR256 => "Simple Pairing Randomizer R-256"
  | CdtListOf32BitServiceSolicitationUuids => "List of 32-bit Service Solicitation UUIDs"
  | CdtServiceData32BitUuid => "Service Data - 32-bit UUID"
  | CdtServiceData128BitUuid => "Service Data - 128-bit UUID"
  | CdtLeSecureConnectionsConfirmationValue => "LE Secure Connections Confirmation Value"
  | CdtLeSecureConnectionsRandomValue => "LE Secure Connections Random Value"
  | CdtUri => "URI"
  | CdtIndoorPositioning => "Indoor Positioning"
  | CdtTransportDiscoveryData => "Transport Discovery Data"
  | CdtLeSupportedFeatures => "LE Supported Features"
  | CdtChannelMapUpdateIndication => "Channel Map Update Indication"
  | CdtPbAdv => "PB-ADV"
  | CdtMeshMessage => "Mesh Message"
  | CdtMeshBeacon => "Mesh Beacon"
  | CdtBigInfo => "BIGInfo"
  | CdtBroadcastCode => "Broadcast_Code"
  | CdtResolvableSetIdentifier => "Resolvable Set Identifier"
  | CdtAdvertisingIntervalLong => "Advertising Interval - long"
  | CdtBroadcastName => "Broadcast_Name"
  | CdtThreeDInformationData => "3D Information Data"
  | CdtManufacturerSpecificData => "Manufacturer Specific Data"
  end%string.

(** What an advertising data structure announces. *)
Definition advertisement_name (a : advertisement) : string :=
  match a with
  | CompleteLocalName _ => "Complete Local Name"
  | ServiceData16BitUuid _ _ => "Service Data - 16-bit UUID"
  | ServiceData32BitUuid _ _ => "Service Data - 32-bit UUID"
  | ServiceData128BitUuid _ _ => "Service Data - 128-bit UUID"
  | ManufacturerSpecificData _ _ => "Manufacturer Specific Data"
  end%string.
