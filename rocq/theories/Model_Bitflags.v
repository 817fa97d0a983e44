(** * Bit fields: the [bitflag_array!] macro (src/bitflag_array.rs), the
    [bitflags!] types, and their declarations. *)
From Verif Require Import Base Model_Types.

(** The [cfg] attribute of a declared flag (e.g. src/lib.rs:779 and 788). *)
Inductive cfg := Always | Since42 | Since50.
Definition cfg_on (f : features) (c : cfg) : bool :=
  match c with
  | Always => true
  | Since42 => any_4_2_5_0 f
  | Since50 => version_5_0 f
  end.

(** ** [bitflags!] types on [u64] or [u8] (crate bitflags 1.2; e.g. src/lib.rs:761).

    A declaration is the list of (bit number, cfg).  The value is its bits. *)
Definition flag_decl : Type := list (N * cfg).

(** [Self::all().bits()] of a [bitflags!] type (e.g. src/lib.rs:761). *)
Definition bf_all (f : features) (d : flag_decl) : N :=
  fold_right (fun e acc => if cfg_on f (snd e) then N.lor (N.shiftl 1 (fst e)) acc else acc) 0 d.

(** [Self::from_bits(bits)]: [if bits & !all == 0 { Some } else { None }]
    (called in src/event/mod.rs:1203 and src/event/command.rs:1673). *)
Definition bf_from_bits (f : features) (d : flag_decl) (v : N) : option N :=
  if N.ldiff v (bf_all f d) =? 0 then Some v else None.

(** [Self::from_bits_truncate(bits)]: [bits & all] (called in
    src/event/command.rs:1214 and 1393). *)
Definition bf_from_bits_truncate (f : features) (d : flag_decl) (v : N) : N :=
  N.land v (bf_all f d).

(** src/lib.rs:761-815, [struct LinkLayerFeature : u64]. *)
Definition LinkLayerFeature : flag_decl :=
  [
   (0, Always); (* LE_ENCRYPTION, line 769 *)
   (1, Always); (* CONNECTION_PARAMETERS_REQUEST_PROCEDURE, line 771 *)
   (2, Always); (* EXTENDED_REJECT_INDICATION, line 773 *)
   (3, Always); (* PERIPHERAL_INITIATED_FEATURES_EXCHANGE, line 775 *)
   (4, Always); (* LE_PING, line 777 *)
   (5, Since42); (* LE_DATA_PACKET_LENGTH_EXTENSION, line 780 *)
   (6, Since42); (* LL_PRIVACY, line 783 *)
   (7, Since42); (* EXTENDED_SCANNER_FILTER_POLICIES, line 786 *)
   (8, Since50); (* LE_2M_PHY, line 789 *)
   (9, Since50); (* STABLE_MODULATION_INDEX_TX, line 792 *)
   (10, Since50); (* STABLE_MODULATION_INDEX_RX, line 795 *)
   (11, Since50); (* LE_CODED_PHY, line 798 *)
   (12, Since50); (* LE_EXTENDED_ADVERTISING, line 801 *)
   (13, Since50); (* LE_PERIODIC_ADVERTISING, line 804 *)
   (14, Since50); (* CHANNEL_SELECTION_ALGORITHM_2, line 807 *)
   (15, Since50); (* LE_POWER_CLASS_1, line 810 *)
   (16, Since50) (* MINIMUM_NUMBER_OF_USED_CHANNELS_PROCEDURE, line 813 *)
  ].

(** src/event/command.rs:1089-1203, [struct LmpFeatures : u64]. *)
Definition LmpFeatures : flag_decl :=
  [
   (0, Always); (* THREE_SLOT_PACKETS, line 1093 *)
   (1, Always); (* FIVE_SLOT_PACKETS, line 1095 *)
   (2, Always); (* ENCRYPTION, line 1097 *)
   (3, Always); (* SLOT_OFFSET, line 1099 *)
   (4, Always); (* TIMING_ACCURACY, line 1101 *)
   (5, Always); (* ROLE_SWITCH, line 1103 *)
   (6, Always); (* HOLD_MODE, line 1105 *)
   (7, Always); (* SNIFF_MODE, line 1107 *)
   (9, Always); (* POWER_CONTROL_REQUESTS, line 1109 *)
   (10, Always); (* CHANNEL_QUALITY_DRIVEN_DATA_RATE_CQDDR, line 1111 *)
   (11, Always); (* SCO_LINK, line 1113 *)
   (12, Always); (* HV2_PACKETS, line 1115 *)
   (13, Always); (* HV3_PACKETS, line 1117 *)
   (14, Always); (* MU_LAW_LOG_SYNCHRONOUS_DATA, line 1119 *)
   (15, Always); (* A_LAW_LOG_SYNCHRONOUS_DATA, line 1121 *)
   (16, Always); (* CVSD_SYNCHRONOUS_DATA, line 1123 *)
   (17, Always); (* PAGING_PARAMETER_NEGOTIATION, line 1125 *)
   (18, Always); (* POWER_CONTROL, line 1127 *)
   (19, Always); (* TRANSPARENT_SYNCHRONOUS_DATA, line 1129 *)
   (20, Always); (* FLOW_CONTROL_LAG_LSB, line 1131 *)
   (21, Always); (* FLOW_CONTROL_LAG_MID, line 1133 *)
   (22, Always); (* FLOW_CONTROL_LAG_MSB, line 1135 *)
   (23, Always); (* BROADCAST_ENCRYPTION, line 1137 *)
   (25, Always); (* ENHANCED_DATA_RATE_ACL_2_MB_PER_S_MODE, line 1139 *)
   (26, Always); (* ENHANCED_DATA_RATE_ACL_3_MB_PER_S_MODE, line 1141 *)
   (27, Always); (* ENHANCED_INQUIRY_SCAN, line 1143 *)
   (28, Always); (* INTERLACED_INQUIRY_SCAN, line 1145 *)
   (29, Always); (* INTERLACED_PAGE_SCAN, line 1147 *)
   (30, Always); (* RSSI_WITH_INQUIRY_RESULTS, line 1149 *)
   (31, Always); (* EXTENDED_SCO_LINK_EV3_PACKETS, line 1151 *)
   (32, Always); (* EV4_PACKETS, line 1153 *)
   (33, Always); (* EV5_PACKETS, line 1155 *)
   (35, Always); (* AFH_CAPABLE_PERIPHERAL, line 1157 *)
   (36, Always); (* AFH_CLASSIFICATION_PERIPHERAL, line 1159 *)
   (37, Always); (* BR_EDR_NOT_SUPPORTED, line 1161 *)
   (38, Always); (* LE_SUPPORTED_BY_CONTROLLER, line 1163 *)
   (39, Always); (* THREE_SLOT_ENHANCED_DATA_RATE_ACL_PACKETS, line 1165 *)
   (40, Always); (* FIVE_SLOT_ENHANCED_DATA_RATE_ACL_PACKETS, line 1167 *)
   (41, Always); (* SNIFF_SUBRATING, line 1169 *)
   (42, Always); (* PAUSE_ENCRYPTION, line 1171 *)
   (43, Always); (* AFH_CAPABLE_CENTRAL_DEVICE, line 1173 *)
   (44, Always); (* AFH_CLASSIFICATION_CENTRAL_DEVICE, line 1175 *)
   (45, Always); (* ENHANCED_DATA_RATE_ESCO_2_MB_PER_S_MODE, line 1177 *)
   (46, Always); (* ENHANCED_DATA_RATE_ESCO_3_MB_PER_S_MODE, line 1179 *)
   (47, Always); (* THREE_SLOT_ENHANCED_DATA_RATE_ESCO_PACKETS, line 1181 *)
   (48, Always); (* EXTENDED_INQUIRY_RESPONSE, line 1183 *)
   (49, Always); (* SIMULTANEOUS_LE_AND_BR_EDR_TO_SAME_DEVICE_CAPABLE, line 1185 *)
   (51, Always); (* SECURE_SIMPLE_PAIRING, line 1187 *)
   (52, Always); (* ENCAPSULATED_PDU, line 1189 *)
   (53, Always); (* ERRONEOUS_DATA_REPORTING, line 1191 *)
   (54, Always); (* NON_FLUSHABLE_PACKET_BOUNDARY_FLAG, line 1193 *)
   (56, Always); (* LINK_SUPERVISION_TIMEOUT_CHANGED_EVENT, line 1195 *)
   (57, Always); (* INQUIRY_TX_POWER_LEVEL, line 1197 *)
   (58, Always); (* ENHANCED_POWER_CONTROL, line 1199 *)
   (63, Always) (* EXTENDED_FEATURES, line 1201 *)
  ].

(** src/event/command.rs:1329-1382, [struct LeFeatures : u64]. *)
Definition LeFeatures : flag_decl :=
  [
   (0, Always); (* ENCRYPTION, line 1336 *)
   (1, Always); (* CONNECTION_PARAMETERS_REQUEST_PROCEDURE, line 1338 *)
   (2, Always); (* EXTENDED_REJECT_INDICATION, line 1340 *)
   (3, Always); (* PERIPHERALINITIATED_FEATURES_EXCHANGE, line 1342 *)
   (4, Always); (* PING, line 1344 *)
   (5, Since42); (* DATA_PACKET_LENGTH_EXTENSION, line 1347 *)
   (6, Since42); (* LL_PRIVACY, line 1350 *)
   (7, Since42); (* EXTENDED_SCANNER_FILTER_POLICIES, line 1353 *)
   (8, Since50); (* PHY_2M, line 1356 *)
   (9, Since50); (* STABLE_MODULATION_INDEX_TX, line 1359 *)
   (10, Since50); (* STABLE_MODULATION_INDEX_RX, line 1362 *)
   (11, Since50); (* CODED_PHY, line 1365 *)
   (12, Since50); (* EXTENDED_ADVERTISING, line 1368 *)
   (13, Since50); (* PERIODIC_ADVERTISING, line 1371 *)
   (14, Since50); (* CHANNEL_SELECTION_ALGORITHM_2, line 1374 *)
   (15, Since50); (* POWER_CLASS_1, line 1377 *)
   (16, Since50) (* MINIMUM_NUMBER_OF_USED_CHANNELS_PROCEDURE, line 1380 *)
  ].

(** src/event/command.rs:1571-1660, [struct LeStates : u64]. *)
Definition LeStates : flag_decl :=
  [
   (0, Always); (* NON_CONNECTABLE_ADVERTISING, line 1576 *)
   (1, Always); (* SCANNABLE_ADVERTISING, line 1578 *)
   (2, Always); (* CONNECTABLE_ADVERTISING, line 1580 *)
   (3, Always); (* DIRECTED_ADVERTISING_HIGH_DUTY_CYCLE, line 1582 *)
   (4, Always); (* PASSIVE_SCANNING, line 1584 *)
   (5, Always); (* ACTIVE_SCANNING, line 1586 *)
   (6, Always); (* INITIATING, line 1588 *)
   (7, Always); (* PERIPHERAL_CONNECTION, line 1590 *)
   (8, Always); (* NONCONN_AD_AND_PASS_SCAN, line 1592 *)
   (9, Always); (* SCAN_AD_AND_PASS_SCAN, line 1594 *)
   (10, Always); (* CONN_AD_AND_PASS_SCAN, line 1596 *)
   (11, Always); (* DIR_AD_HDC_AND_PASS_SCAN, line 1598 *)
   (12, Always); (* NONCONN_AD_AND_ACT_SCAN, line 1600 *)
   (13, Always); (* SCAN_AD_AND_ACT_SCAN, line 1602 *)
   (14, Always); (* CONN_AD_AND_ACT_SCAN, line 1604 *)
   (15, Always); (* DIR_AD_HDC_AND_ACT_SCAN, line 1606 *)
   (16, Always); (* NONCONN_AD_AND_INITIATING, line 1608 *)
   (17, Always); (* SCAN_AD_AND_INITIATING, line 1610 *)
   (18, Always); (* NONCONN_AD_AND_CENTRAL_CONN, line 1612 *)
   (19, Always); (* SCAN_AD_AND_CENTRAL_CONN, line 1614 *)
   (20, Always); (* NONCONN_AD_AND_PERIPH_CONN, line 1616 *)
   (21, Always); (* SCAN_AD_AND_PERIPH_CONN, line 1618 *)
   (22, Always); (* PASS_SCAN_AND_INITIATING, line 1620 *)
   (23, Always); (* ACT_SCAN_AND_INITIATING, line 1622 *)
   (24, Always); (* PASS_SCAN_AND_CENTRAL_CONN, line 1624 *)
   (25, Always); (* ACT_SCAN_AND_CENTRAL_CONN, line 1626 *)
   (26, Always); (* PASS_SCAN_AND_PERIPH_CONN, line 1628 *)
   (27, Always); (* ACT_SCAN_AND_PERIPH_CONN, line 1630 *)
   (28, Always); (* INITIATING_AND_CENTRAL_CONN, line 1632 *)
   (29, Always); (* DIRECTED_ADVERTISING_LOW_DUTY_CYCLE, line 1634 *)
   (30, Always); (* DIR_AD_LDC_AND_PASS_SCAN, line 1636 *)
   (31, Always); (* DIR_AD_LDC_AND_ACT_SCAN, line 1638 *)
   (32, Always); (* CONN_AD_AND_INITIATING, line 1640 *)
   (33, Always); (* DIR_AD_HDC_AND_INITIATING, line 1642 *)
   (34, Always); (* DIR_AD_LDC_AND_INITIATING, line 1644 *)
   (35, Always); (* CONN_AD_AND_CENTRAL_CONN, line 1646 *)
   (36, Always); (* DIR_AD_HDC_AND_CENTRAL_CONN, line 1648 *)
   (37, Always); (* DIR_AD_LDC_AND_CENTRAL_CONN, line 1650 *)
   (38, Always); (* CONN_AD_AND_PERIPH_CONN, line 1652 *)
   (39, Always); (* DIR_AD_HDC_AND_PERIPH_CONN, line 1654 *)
   (40, Always); (* DIR_AD_LDC_AND_PERIPH_CONN, line 1656 *)
   (41, Always) (* INITIATING_AND_PERIPH_CONN, line 1658 *)
  ].

(** src/host/mod.rs:1546-1650, [struct EventFlags : u64]. *)
Definition EventFlags : flag_decl :=
  [
   (0, Always); (* INQUIRY_COMPLETE, line 1551 *)
   (1, Always); (* INQUIRY_RESULT, line 1553 *)
   (2, Always); (* CONNECTION_COMPLETE, line 1555 *)
   (3, Always); (* CONNECTION_REQUEST, line 1557 *)
   (4, Always); (* DISCONNECTION_COMPLETE, line 1559 *)
   (5, Always); (* AUTHENTICATION_COMPLETE, line 1561 *)
   (6, Always); (* REMOTE_NAME_REQUEST_COMPLETE, line 1563 *)
   (7, Always); (* ENCRYPTION_CHANGE, line 1565 *)
   (8, Always); (* CHANGE_CONNECTION_LINK_KEY_COMPLETE, line 1567 *)
   (9, Always); (* MASTER_LINK_KEY_COMPLETE, line 1569 *)
   (10, Always); (* READ_REMOTE_SUPPORTED_FEATURES_COMPLETE, line 1571 *)
   (11, Always); (* READ_REMOTE_VERSION_INFORMATION_COMPLETE, line 1573 *)
   (12, Always); (* QOS_SETUP_COMPLETE, line 1575 *)
   (15, Always); (* HARDWARE_ERROR, line 1577 *)
   (16, Always); (* FLUSH_OCCURRED, line 1579 *)
   (17, Always); (* ROLE_CHANGE, line 1581 *)
   (19, Always); (* MODE_CHANGE, line 1583 *)
   (20, Always); (* RETURN_LINK_KEYS, line 1585 *)
   (21, Always); (* PIN_CODE_REQUEST, line 1587 *)
   (22, Always); (* LINK_KEY_REQUEST, line 1589 *)
   (23, Always); (* LINK_KEY_NOTIFICATION, line 1591 *)
   (24, Always); (* LOOPBACK_COMMAND, line 1593 *)
   (25, Always); (* DATA_BUFFER_OVERFLOW, line 1595 *)
   (26, Always); (* MAX_SLOTS_CHANGE, line 1597 *)
   (27, Always); (* READ_CLOCK_OFFSET_COMPLETE, line 1599 *)
   (28, Always); (* CONNECTION_PACKET_TYPE_CHANGED, line 1601 *)
   (29, Always); (* QOS_VIOLATION, line 1603 *)
   (30, Always); (* PAGE_SCAN_MODE_CHANGE, line 1606 *)
   (31, Always); (* PAGE_SCAN_REPETITION_MODE_CHANGE, line 1608 *)
   (32, Always); (* FLOW_SPECIFICATION_COMPLETE, line 1610 *)
   (33, Always); (* INQUIRY_RESULT_WITH_RSSI, line 1612 *)
   (34, Always); (* READ_REMOTE_EXTENDED_FEATURES_COMPLETE, line 1614 *)
   (43, Always); (* SYNCHRONOUS_CONNECTION_COMPLETE, line 1616 *)
   (44, Always); (* SYNCHRONOUS_CONNECTION_CHANGED, line 1618 *)
   (45, Always); (* SNIFF_SUBRATING, line 1620 *)
   (46, Always); (* EXTENDED_INQUIRY_RESULT, line 1622 *)
   (47, Always); (* ENCRYPTION_KEY_REFRESH_COMPLETE, line 1624 *)
   (48, Always); (* IO_CAPABILITY_REQUEST, line 1626 *)
   (49, Always); (* IO_CAPABILITY_REQUEST_REPLY, line 1628 *)
   (50, Always); (* USER_CONFIRMATION_REQUEST, line 1630 *)
   (51, Always); (* USER_PASSKEY_REQUEST, line 1632 *)
   (52, Always); (* REMOTE_OOB_DATA_REQUEST, line 1634 *)
   (53, Always); (* SIMPLE_PAIRING_COMPLETE, line 1636 *)
   (55, Always); (* LINK_SUPERVISION_TIMEOUT_CHANGED, line 1638 *)
   (56, Always); (* ENHANCED_FLUSH_COMPLETE, line 1640 *)
   (58, Always); (* USER_PASSKEY_NOTIFICATION, line 1642 *)
   (59, Always); (* KEYPRESS_NOTIFICATION, line 1644 *)
   (60, Always); (* REMOTE_HOST_SUPPORTED_FEATURES_NOTIFICATION, line 1646 *)
   (61, Always) (* LE_META_EVENT, line 1648 *)
  ].

(** src/host/mod.rs:1661-1725, [struct LeEventFlags : u64]. *)
Definition LeEventFlags : flag_decl :=
  [
   (0, Always); (* CONNECTION_COMPLETE, line 1670 *)
   (1, Always); (* ADVERTISING_REPORT, line 1672 *)
   (2, Always); (* CONNECTION_UPDATE_COMPLETE, line 1674 *)
   (3, Always); (* READ_REMOTE_FEATURES_COMPLETE, line 1676 *)
   (4, Always); (* LONG_TERM_KEY_REQUEST, line 1678 *)
   (5, Always); (* REMOTE_CONNECTION_PARAMETER_REQUEST, line 1680 *)
   (6, Since42); (* DATA_LENGTH_CHANGE, line 1683 *)
   (7, Since42); (* READ_LOCAL_P256_PUBLIC_KEY_COMPLETE, line 1686 *)
   (8, Since42); (* GENERATE_DHKEY_COMPLETE, line 1689 *)
   (9, Since42); (* ENHANCED_CONNECTION_COMPLETE, line 1692 *)
   (10, Since42); (* DIRECTED_ADVERTISING_REPORT, line 1695 *)
   (11, Since50); (* PHY_UPDATE_COMPLETE, line 1698 *)
   (12, Since50); (* EXTENDED_ADVERTISING_REPORT, line 1701 *)
   (13, Since50); (* PERIODIC_ADVERTISING_SYNC_ESTABLISHED, line 1704 *)
   (14, Since50); (* PERIODIC_ADVERTISING_REPORT, line 1707 *)
   (15, Since50); (* PERIODIC_ADVERTISING_SYNC_LOST, line 1710 *)
   (16, Since50); (* EXTENDED_SCAN_TIMEOUT, line 1713 *)
   (17, Since50); (* EXTENDED_ADVERTISING_SET_TERMINATED, line 1716 *)
   (18, Since50); (* SCAN_REQUEST_RECEIVED, line 1719 *)
   (19, Since50) (* CHANNEL_SELECTION_ALGORITHM, line 1722 *)
  ].

(** src/host/mod.rs:1826-1836, [struct Channels : u8]. *)
Definition Channels : flag_decl :=
  [
   (0, Always); (* CH_37, line 1830 *)
   (1, Always); (* CH_38, line 1832 *)
   (2, Always) (* CH_39, line 1834 *)
  ].

(** ** [bitflag_array!] (src/bitflag_array.rs).

    A declaration is the list of (octet, mask, cfg).  A flag constant is the
    pair (octet, mask) (lines 76-81); its fields are private, so every flag
    value is a declared constant. *)
Definition array_decl : Type := list (nat * N * cfg).
Definition array_flag : Type := nat * N.

(** The flag constants that exist (src/bitflag_array.rs:84-90). *)
Definition ba_flags (f : features) (d : array_decl) : list array_flag :=
  map fst (filter (fun e => cfg_on f (snd e)) d).

(** [bits[octet] |= mask] (src/bitflag_array.rs:130,185-187). *)
Definition ba_or_into {E} (bits : list N) (fl : array_flag) : outcome E (list N) :=
  let! b := idx bits (fst fl) in
  set_idx bits (fst fl) (N.lor b (snd fl)).

(** src/bitflag_array.rs:122-131, [all]: one [|=] per declared flag whose cfg
    is on, in order. *)
Fixpoint ba_or_all {E} (bits : list N) (fls : list array_flag) : outcome E (list N) :=
  match fls with
  | [] => Ok bits
  | fl :: rest => let! bits := ba_or_into bits fl in ba_or_all bits rest
  end.
Definition ba_all {E} (f : features) (size : nat) (d : array_decl) : outcome E (list N) :=
  ba_or_all (zeros size) (ba_flags f d).

(** src/bitflag_array.rs:134-136, [empty]. *)
Definition ba_empty (size : nat) : list N := zeros size.

(** src/bitflag_array.rs:99-105: the loop of [from_bits] over [i] in
    [0..size], from index [i] with [n] iterations left.  [!allowed_bits] is on
    [u8]. *)
Fixpoint ba_check {E} (bits all : list N) (i n : nat) : outcome E bool :=
  match n with
  | O => Ok true
  | S n' =>
      let! provided := idx bits i in
      let! allowed := idx all i in
      if N.land provided (255 - allowed) =? 0
      then ba_check bits all (S i) n'
      else Ok false
  end.

(** src/bitflag_array.rs:93-110, [from_bits]. *)
Definition ba_from_bits {E} (f : features) (size : nat) (d : array_decl) (bits : list N)
    : outcome E (option (list N)) :=
  let! _ := assert (Nat.eqb (length bits) size) in
  let! all := ba_all f size d in
  let! ok := ba_check bits all 0 size in
  if ok : bool then
    let! flags := copy_from_slice bits (zeros size) in
    Ok (Some flags)
  else Ok None.

(** src/bitflag_array.rs:114-117, [copy_into_slice]. *)
Definition ba_copy_into_slice {E} (flags buf : list N) : outcome E (list N) :=
  let! _ := assert (Nat.eqb (length flags) (length buf)) in
  copy_from_slice flags buf.

(** src/bitflag_array.rs:139-141, [bits]. *)
Definition ba_bits (flags : list N) : list N := flags.

(** src/bitflag_array.rs:144-146, [is_empty]. *)
Definition ba_is_empty (flags : list N) : bool := forallb (fun x => x =? 0) flags.

(** src/bitflag_array.rs:149-151, [is_set]. *)
Definition ba_is_set {E} (flags : list N) (fl : array_flag) : outcome E bool :=
  let! b := idx flags (fst fl) in
  Ok (negb (N.land b (snd fl) =? 0)).

(** src/bitflag_array.rs:154-159, [contains]. *)
Definition ba_contains (a b : list N) : bool :=
  forallb (fun p => N.land (fst p) (snd p) =? snd p) (combine a b).

(** src/bitflag_array.rs:165-171, [flag | flag]. *)
Definition ba_flag_or {E} (size : nat) (x y : array_flag) : outcome E (list N) :=
  let! flags := ba_or_into (zeros size) x in
  ba_or_into flags y.

(** src/bitflag_array.rs:177-188, [flags | flag] and [flags |= flag]. *)
Definition ba_or {E} (flags : list N) (fl : array_flag) : outcome E (list N) :=
  ba_or_into flags fl.

(** src/bitflag_array.rs:192-204, [flags == flag]: the loop over [i]. *)
Fixpoint ba_eq_flag_loop {E} (flags : list N) (fl : array_flag) (i n : nat) : outcome E bool :=
  match n with
  | O => Ok true
  | S n' =>
      let! b := idx flags i in
      if Nat.eqb i (fst fl) then
        if b =? snd fl then ba_eq_flag_loop flags fl (S i) n' else Ok false
      else if b =? 0 then ba_eq_flag_loop flags fl (S i) n' else Ok false
  end.
Definition ba_eq_flag {E} (size : nat) (flags : list N) (fl : array_flag) : outcome E bool :=
  ba_eq_flag_loop flags fl 0 size.

(** src/bitflag_array.rs:208-210, [flags == flags]. *)
Definition ba_eq (a b : list N) : bool :=
  forallb (fun p => fst p =? snd p) (combine a b).

(** src/bitflag_array.rs:214-219, [From<flag>]. *)
Definition ba_from_flag {E} (size : nat) (fl : array_flag) : outcome E (list N) :=
  set_idx (zeros size) (fst fl) (snd fl).

(** src/lib.rs:817-900, [struct ChannelClassification : 5]. *)
Definition ChannelClassification_decl : array_decl :=
  [
   (0%nat, 0x01, Always); (* CH_0, line 827 *)
   (0%nat, 0x02, Always); (* CH_1, line 829 *)
   (0%nat, 0x04, Always); (* CH_2, line 831 *)
   (0%nat, 0x08, Always); (* CH_3, line 833 *)
   (0%nat, 0x10, Always); (* CH_4, line 835 *)
   (0%nat, 0x20, Always); (* CH_5, line 837 *)
   (0%nat, 0x40, Always); (* CH_6, line 839 *)
   (0%nat, 0x80, Always); (* CH_7, line 841 *)
   (1%nat, 0x01, Always); (* CH_8, line 843 *)
   (1%nat, 0x02, Always); (* CH_9, line 845 *)
   (1%nat, 0x04, Always); (* CH_10, line 847 *)
   (1%nat, 0x08, Always); (* CH_11, line 849 *)
   (1%nat, 0x10, Always); (* CH_12, line 851 *)
   (1%nat, 0x20, Always); (* CH_13, line 853 *)
   (1%nat, 0x40, Always); (* CH_14, line 855 *)
   (1%nat, 0x80, Always); (* CH_15, line 857 *)
   (2%nat, 0x01, Always); (* CH_16, line 859 *)
   (2%nat, 0x02, Always); (* CH_17, line 861 *)
   (2%nat, 0x04, Always); (* CH_18, line 863 *)
   (2%nat, 0x08, Always); (* CH_19, line 865 *)
   (2%nat, 0x10, Always); (* CH_20, line 867 *)
   (2%nat, 0x20, Always); (* CH_21, line 869 *)
   (2%nat, 0x40, Always); (* CH_22, line 871 *)
   (2%nat, 0x80, Always); (* CH_23, line 873 *)
   (3%nat, 0x01, Always); (* CH_24, line 875 *)
   (3%nat, 0x02, Always); (* CH_25, line 877 *)
   (3%nat, 0x04, Always); (* CH_26, line 879 *)
   (3%nat, 0x08, Always); (* CH_27, line 881 *)
   (3%nat, 0x10, Always); (* CH_28, line 883 *)
   (3%nat, 0x20, Always); (* CH_29, line 885 *)
   (3%nat, 0x40, Always); (* CH_30, line 887 *)
   (3%nat, 0x80, Always); (* CH_31, line 889 *)
   (4%nat, 0x01, Always); (* CH_32, line 891 *)
   (4%nat, 0x02, Always); (* CH_33, line 893 *)
   (4%nat, 0x04, Always); (* CH_34, line 895 *)
   (4%nat, 0x08, Always); (* CH_35, line 897 *)
   (4%nat, 0x10, Always) (* CH_36, line 899 *)
  ].

Definition ChannelClassification_size : nat := 5. (* src/lib.rs:823 *)

(** src/event/command.rs:426-1038, [struct CommandFlags : COMMAND_FLAGS_SIZE]. *)
Definition CommandFlags_decl : array_decl :=
  [
   (0%nat, 0x01, Always); (* INQUIRY, line 434 *)
   (0%nat, 0x02, Always); (* INQUIRY_CANCEL, line 436 *)
   (0%nat, 0x04, Always); (* PERIODIC_INQUIRY_MODE, line 438 *)
   (0%nat, 0x08, Always); (* EXIT_PERIODIC_INQUIRY_MODE, line 440 *)
   (0%nat, 0x10, Always); (* CREATE_CONNECTION, line 442 *)
   (0%nat, 0x20, Always); (* DISCONNECT, line 444 *)
   (0%nat, 0x40, Always); (* ADD_SCO_CONNECTION, line 447 *)
   (0%nat, 0x80, Always); (* CREATE_CONNECTION_CANCEL, line 449 *)
   (1%nat, 0x01, Always); (* ACCEPT_CONNECTION_REQUEST, line 451 *)
   (1%nat, 0x02, Always); (* REJECT_CONNECTION_REQUEST, line 453 *)
   (1%nat, 0x04, Always); (* LINK_KEY_REQUEST_REPLY, line 455 *)
   (1%nat, 0x08, Always); (* LINK_KEY_REQUEST_NEGATIVE_REPLY, line 457 *)
   (1%nat, 0x10, Always); (* PIN_CODE_REQUEST_REPLY, line 459 *)
   (1%nat, 0x20, Always); (* PIN_CODE_REQUEST_NEGATIVE_REPLY, line 461 *)
   (1%nat, 0x40, Always); (* CHANGE_CONNECTION_PACKET_TYPE, line 463 *)
   (1%nat, 0x80, Always); (* AUTHENTICATION_REQUESTED, line 465 *)
   (2%nat, 0x01, Always); (* SET_CONNECTION_ENCRYPTION, line 467 *)
   (2%nat, 0x02, Always); (* CHANGE_CONNECTION_LINK_KEY, line 469 *)
   (2%nat, 0x04, Always); (* MASTER_LINK_KEY, line 471 *)
   (2%nat, 0x08, Always); (* REMOTE_NAME_REQUEST, line 473 *)
   (2%nat, 0x10, Always); (* REMOTE_NAME_REQUEST_CANCEL, line 475 *)
   (2%nat, 0x20, Always); (* READ_REMOTE_SUPPORTED_FEATURES, line 477 *)
   (2%nat, 0x40, Always); (* READ_REMOTE_EXTENDED_FEATURES, line 479 *)
   (2%nat, 0x80, Always); (* READ_REMOTE_VERSION_INFORMATION, line 481 *)
   (3%nat, 0x01, Always); (* READ_CLOCK_OFFSET, line 483 *)
   (3%nat, 0x02, Always); (* READ_LMP_HANDLE, line 485 *)
   (4%nat, 0x02, Always); (* HOLD_MODE, line 487 *)
   (4%nat, 0x04, Always); (* SNIFF_MODE, line 489 *)
   (4%nat, 0x08, Always); (* EXIT_SNIFF_MODE, line 491 *)
   (4%nat, 0x10, Always); (* PARK_STATE, line 493 *)
   (4%nat, 0x20, Always); (* EXIT_PARK_STATE, line 495 *)
   (4%nat, 0x40, Always); (* QOS_SETUP, line 497 *)
   (4%nat, 0x80, Always); (* ROLE_DISCOVERY, line 499 *)
   (5%nat, 0x01, Always); (* SWITCH_ROLE, line 501 *)
   (5%nat, 0x02, Always); (* READ_LINK_POLICY_SETTINGS, line 503 *)
   (5%nat, 0x04, Always); (* WRITE_LINK_POLICY_SETTINGS, line 505 *)
   (5%nat, 0x08, Always); (* READ_DEFAULT_LINK_POLICY_SETTINGS, line 507 *)
   (5%nat, 0x10, Always); (* WRITE_DEFAULT_LINK_POLICY_SETTINGS, line 509 *)
   (5%nat, 0x20, Always); (* FLOW_SPECIFICATION, line 511 *)
   (5%nat, 0x40, Always); (* SET_EVENT_MASK, line 513 *)
   (5%nat, 0x80, Always); (* RESET, line 515 *)
   (6%nat, 0x01, Always); (* SET_EVENT_FILTER, line 517 *)
   (6%nat, 0x02, Always); (* FLUSH, line 519 *)
   (6%nat, 0x04, Always); (* READ_PIN_TYPE, line 521 *)
   (6%nat, 0x08, Always); (* WRITE_PIN_TYPE, line 523 *)
   (6%nat, 0x10, Always); (* CREATE_NEW_UNIT_KEY, line 525 *)
   (6%nat, 0x20, Always); (* READ_STORED_LINK_KEY, line 527 *)
   (6%nat, 0x40, Always); (* WRITE_STORED_LINK_KEY, line 529 *)
   (6%nat, 0x80, Always); (* DELETE_STORED_LINK_KEY, line 531 *)
   (7%nat, 0x01, Always); (* WRITE_LOCAL_NAME, line 533 *)
   (7%nat, 0x02, Always); (* READ_LOCAL_NAME, line 535 *)
   (7%nat, 0x04, Always); (* READ_CONNECTION_ACCEPT_TIMEOUT, line 537 *)
   (7%nat, 0x08, Always); (* WRITE_CONNECTION_ACCEPT_TIMEOUT, line 539 *)
   (7%nat, 0x10, Always); (* READ_PAGE_TIMEOUT, line 541 *)
   (7%nat, 0x20, Always); (* WRITE_PAGE_TIMEOUT, line 543 *)
   (7%nat, 0x40, Always); (* READ_SCAN_ENABLE, line 545 *)
   (7%nat, 0x80, Always); (* WRITE_SCAN_ENABLE, line 547 *)
   (8%nat, 0x01, Always); (* READ_PAGE_SCAN_ACTIVITY, line 549 *)
   (8%nat, 0x02, Always); (* WRITE_PAGE_SCAN_ACTIVITY, line 551 *)
   (8%nat, 0x04, Always); (* READ_INQUIRY_SCAN_ACTIVITY, line 553 *)
   (8%nat, 0x08, Always); (* WRITE_INQUIRY_SCAN_ACTIVITY, line 555 *)
   (8%nat, 0x10, Always); (* READ_AUTHENTICATION_ENABLE, line 557 *)
   (8%nat, 0x20, Always); (* WRITE_AUTHENTICATION_ENABLE, line 559 *)
   (8%nat, 0x40, Always); (* READ_ENCRYPTION_MODE, line 562 *)
   (8%nat, 0x80, Always); (* WRITE_ENCRYPTION_MODE, line 565 *)
   (9%nat, 0x01, Always); (* READ_CLASS_OF_DEVICE, line 567 *)
   (9%nat, 0x02, Always); (* WRITE_CLASS_OF_DEVICE, line 569 *)
   (9%nat, 0x04, Always); (* READ_VOICE_SETTING, line 571 *)
   (9%nat, 0x08, Always); (* WRITE_VOICE_SETTING, line 573 *)
   (9%nat, 0x10, Always); (* READ_AUTOMATIC_FLUSH_TIMEOUT, line 575 *)
   (9%nat, 0x20, Always); (* WRITE_AUTOMATIC_FLUSH_TIMEOUT, line 577 *)
   (9%nat, 0x40, Always); (* READ_NUM_BROADCAST_RETRANSMISSIONS, line 579 *)
   (9%nat, 0x80, Always); (* WRITE_NUM_BROADCAST_RETRANSMISSIONS, line 581 *)
   (10%nat, 0x01, Always); (* READ_HOLD_MODE_ACTIVITY, line 583 *)
   (10%nat, 0x02, Always); (* WRITE_HOLD_MODE_ACTIVITY, line 585 *)
   (10%nat, 0x04, Always); (* READ_TRANSMIT_POWER_LEVEL, line 587 *)
   (10%nat, 0x08, Always); (* READ_SYNCHRONOUS_FLOW_CONTROL_ENABLE, line 589 *)
   (10%nat, 0x10, Always); (* WRITE_SYNCHRONOUS_FLOW_CONTROL_ENABLE, line 591 *)
   (10%nat, 0x20, Always); (* SET_CONTROLLER_TO_HOST_FLOW_CONTROL, line 593 *)
   (10%nat, 0x40, Always); (* HOST_BUFFER_SIZE, line 595 *)
   (10%nat, 0x80, Always); (* HOST_NUMBER_OF_COMPLETED_PACKETS, line 597 *)
   (11%nat, 0x01, Always); (* READ_LINK_SUPERVISION_TIMEOUT, line 599 *)
   (11%nat, 0x02, Always); (* WRITE_LINK_SUPERVISION_TIMEOUT, line 601 *)
   (11%nat, 0x04, Always); (* READ_NUMBER_OF_SUPPORTED_IAC, line 603 *)
   (11%nat, 0x08, Always); (* READ_CURRENT_IAC_LAP, line 605 *)
   (11%nat, 0x10, Always); (* WRITE_CURRENT_IAC_LAP, line 607 *)
   (11%nat, 0x20, Always); (* READ_PAGE_SCAN_MODE_PERIOD, line 610 *)
   (11%nat, 0x40, Always); (* WRITE_PAGE_SCAN_MODE_PERIOD, line 613 *)
   (11%nat, 0x80, Always); (* READ_PAGE_SCAN_MODE, line 616 *)
   (12%nat, 0x01, Always); (* WRITE_PAGE_SCAN_MODE, line 619 *)
   (12%nat, 0x02, Always); (* SET_AFH_HOST_CHANNEL_CLASSIFICATION, line 621 *)
   (12%nat, 0x10, Always); (* READ_INQUIRY_SCAN_TYPE, line 623 *)
   (12%nat, 0x20, Always); (* WRITE_INQUIRY_SCAN_TYPE, line 625 *)
   (12%nat, 0x40, Always); (* READ_INQUIRY_MODE, line 627 *)
   (12%nat, 0x80, Always); (* WRITE_INQUIRY_MODE, line 629 *)
   (13%nat, 0x01, Always); (* READ_PAGE_SCAN_TYPE, line 631 *)
   (13%nat, 0x02, Always); (* WRITE_PAGE_SCAN_TYPE, line 633 *)
   (13%nat, 0x04, Always); (* READ_AFH_CHANNEL_ASSESSMENT_MODE, line 635 *)
   (13%nat, 0x08, Always); (* WRITE_AFH_CHANNEL_ASSESSMENT_MODE, line 637 *)
   (14%nat, 0x08, Always); (* READ_LOCAL_VERSION_INFORMATION, line 639 *)
   (14%nat, 0x20, Always); (* READ_LOCAL_SUPPORTED_FEATURES, line 641 *)
   (14%nat, 0x40, Always); (* READ_LOCAL_EXTENDED_FEATURES, line 643 *)
   (14%nat, 0x80, Always); (* READ_BUFFER_SIZE, line 645 *)
   (15%nat, 0x01, Always); (* READ_COUNTRY_CODE, line 648 *)
   (15%nat, 0x02, Always); (* READ_BD_ADDR, line 650 *)
   (15%nat, 0x04, Always); (* READ_FAILED_CONTACT_COUNTER, line 652 *)
   (15%nat, 0x08, Always); (* RESET_FAILED_CONTACT_COUNTER, line 654 *)
   (15%nat, 0x10, Always); (* READ_LINK_QUALITY, line 656 *)
   (15%nat, 0x20, Always); (* READ_RSSI, line 658 *)
   (15%nat, 0x40, Always); (* READ_AFH_CHANNEL_MAP, line 660 *)
   (15%nat, 0x80, Always); (* READ_CLOCK, line 662 *)
   (16%nat, 0x01, Always); (* READ_LOOPBACK_MODE, line 664 *)
   (16%nat, 0x02, Always); (* WRITE_LOOPBACK_MODE, line 666 *)
   (16%nat, 0x04, Always); (* ENABLE_DEVICE_UNDER_TEST_MODE, line 668 *)
   (16%nat, 0x08, Always); (* SETUP_SYNCHRONOUS_CONNECTION_REQUEST, line 670 *)
   (16%nat, 0x10, Always); (* ACCEPT_SYNCHRONOUS_CONNECTION_REQUEST, line 672 *)
   (16%nat, 0x20, Always); (* REJECT_SYNCHRONOUS_CONNECTION_REQUEST, line 674 *)
   (17%nat, 0x01, Always); (* READ_EXTENDED_INQUIRY_RESPONSE, line 676 *)
   (17%nat, 0x02, Always); (* WRITE_EXTENDED_INQUIRY_RESPONSE, line 678 *)
   (17%nat, 0x04, Always); (* REFRESH_ENCRYPTION_KEY, line 680 *)
   (17%nat, 0x10, Always); (* SNIFF_SUBRATING, line 682 *)
   (17%nat, 0x20, Always); (* READ_SIMPLE_PAIRING_MODE, line 684 *)
   (17%nat, 0x40, Always); (* WRITE_SIMPLE_PAIRING_MODE, line 686 *)
   (17%nat, 0x80, Always); (* READ_LOCAL_OOB_DATA, line 688 *)
   (18%nat, 0x01, Always); (* READ_INQUIRY_RESPONSE_TRANSMIT_POWER_LEVEL, line 690 *)
   (18%nat, 0x02, Always); (* WRITE_INQUIRY_TRANSMIT_POWER_LEVEL, line 692 *)
   (18%nat, 0x04, Always); (* READ_DEFAULT_ERRONEOUS_DATA_REPORTING, line 694 *)
   (18%nat, 0x08, Always); (* WRITE_DEFAULT_ERRONEOUS_DATA_REPORTING, line 696 *)
   (18%nat, 0x80, Always); (* IO_CAPABILITY_REQUEST_REPLY, line 698 *)
   (19%nat, 0x01, Always); (* USER_CONFIRMATION_REQUEST_REPLY, line 700 *)
   (19%nat, 0x02, Always); (* USER_CONFIRMATION_REQUEST_NEGATIVE_REPLY, line 702 *)
   (19%nat, 0x04, Always); (* USER_PASSKEY_REQUEST_REPLY, line 704 *)
   (19%nat, 0x08, Always); (* USER_PASSKEY_REQUEST_NEGATIVE_REPLY, line 706 *)
   (19%nat, 0x10, Always); (* REMOTE_OOB_DATA_REQUEST_REPLY, line 708 *)
   (19%nat, 0x20, Always); (* WRITE_SIMPLE_PAIRING_DEBUG_MODE, line 710 *)
   (19%nat, 0x40, Always); (* ENHANCED_FLUSH, line 712 *)
   (19%nat, 0x80, Always); (* REMOTE_OOB_DATA_REQUEST_NEGATIVE_REPLY, line 714 *)
   (20%nat, 0x04, Always); (* SEND_KEYPRESS_NOTIFICATION, line 716 *)
   (20%nat, 0x08, Always); (* IO_CAPABILITY_REQUEST_NEGATIVE_REPLY, line 718 *)
   (20%nat, 0x10, Always); (* READ_ENCRYPTION_KEY_SIZE, line 720 *)
   (21%nat, 0x01, Always); (* CREATE_PHYSICAL_LINK, line 722 *)
   (21%nat, 0x02, Always); (* ACCEPT_PHYSICAL_LINK, line 724 *)
   (21%nat, 0x04, Always); (* DISCONNECT_PHYSICAL_LINK, line 726 *)
   (21%nat, 0x08, Always); (* CREATE_LOGICAL_LINK, line 728 *)
   (21%nat, 0x10, Always); (* ACCEPT_LOGICAL_LINK, line 730 *)
   (21%nat, 0x20, Always); (* DISCONNECT_LOGICAL_LINK, line 732 *)
   (21%nat, 0x40, Always); (* LOGICAL_LINK_CANCEL, line 734 *)
   (21%nat, 0x80, Always); (* FLOW_SPEC_MODIFY, line 736 *)
   (22%nat, 0x01, Always); (* READ_LOGICAL_LINK_ACCEPT_TIMEOUT, line 738 *)
   (22%nat, 0x02, Always); (* WRITE_LOGICAL_LINK_ACCEPT_TIMEOUT, line 740 *)
   (22%nat, 0x04, Always); (* SET_EVENT_MASK_PAGE_2, line 742 *)
   (22%nat, 0x08, Always); (* READ_LOCATION_DATA, line 744 *)
   (22%nat, 0x10, Always); (* WRITE_LOCATION_DATA, line 746 *)
   (22%nat, 0x20, Always); (* READ_LOCAL_AMP_INFO, line 748 *)
   (22%nat, 0x40, Always); (* READ_LOCAL_AMP_ASSOC, line 750 *)
   (22%nat, 0x80, Always); (* WRITE_REMOTE_AMP_ASSOC, line 752 *)
   (23%nat, 0x01, Always); (* READ_FLOW_CONTROL_MODE, line 754 *)
   (23%nat, 0x02, Always); (* WRITE_FLOW_CONTROL_MODE, line 756 *)
   (23%nat, 0x04, Always); (* READ_DATA_BLOCK_SIZE, line 758 *)
   (23%nat, 0x20, Always); (* ENABLE_AMP_RECEIVER_REPORTS, line 760 *)
   (23%nat, 0x40, Always); (* AMP_TEST_END, line 762 *)
   (23%nat, 0x80, Always); (* AMP_TEST, line 764 *)
   (24%nat, 0x01, Always); (* READ_ENHANCED_TRANSMIT_POWER_LEVEL, line 766 *)
   (24%nat, 0x04, Always); (* READ_BEST_EFFORT_FLUSH_TIMEOUT, line 768 *)
   (24%nat, 0x08, Always); (* WRITE_BEST_EFFORT_FLUSH_TIMEOUT, line 770 *)
   (24%nat, 0x10, Always); (* SHORT_RANGE_MODE, line 772 *)
   (24%nat, 0x20, Always); (* READ_LE_HOST_SUPPORT, line 774 *)
   (24%nat, 0x40, Always); (* WRITE_LE_HOST_SUPPORT, line 776 *)
   (25%nat, 0x01, Always); (* LE_SET_EVENT_MASK, line 778 *)
   (25%nat, 0x02, Always); (* LE_READ_BUFFER_SIZE, line 780 *)
   (25%nat, 0x04, Always); (* LE_READ_LOCAL_SUPPORTED_FEATURES, line 782 *)
   (25%nat, 0x10, Always); (* LE_SET_RANDOM_ADDRESS, line 784 *)
   (25%nat, 0x20, Always); (* LE_SET_ADVERTISING_PARAMETERS, line 786 *)
   (25%nat, 0x40, Always); (* LE_READ_ADVERTISING_CHANNEL_TX_POWER, line 788 *)
   (25%nat, 0x80, Always); (* LE_SET_ADVERTISING_DATA, line 790 *)
   (26%nat, 0x01, Always); (* LE_SET_SCAN_RESPONSE_DATA, line 792 *)
   (26%nat, 0x02, Always); (* LE_SET_ADVERTISE_ENABLE, line 794 *)
   (26%nat, 0x04, Always); (* LE_SET_SCAN_PARAMETERS, line 796 *)
   (26%nat, 0x08, Always); (* LE_SET_SCAN_ENABLE, line 798 *)
   (26%nat, 0x10, Always); (* LE_CREATE_CONNECTION, line 800 *)
   (26%nat, 0x20, Always); (* LE_CREATE_CONNECTION_CANCEL, line 802 *)
   (26%nat, 0x40, Always); (* LE_READ_WHITE_LIST_SIZE, line 804 *)
   (26%nat, 0x80, Always); (* LE_CLEAR_WHITE_LIST, line 806 *)
   (27%nat, 0x01, Always); (* LE_ADD_DEVICE_TO_WHITE_LIST, line 808 *)
   (27%nat, 0x02, Always); (* LE_REMOVE_DEVICE_FROM_WHITE_LIST, line 810 *)
   (27%nat, 0x04, Always); (* LE_CONNECTION_UPDATE, line 812 *)
   (27%nat, 0x08, Always); (* LE_SET_HOST_CHANNEL_CLASSIFICATION, line 814 *)
   (27%nat, 0x10, Always); (* LE_READ_CHANNEL_MAP, line 816 *)
   (27%nat, 0x20, Always); (* LE_READ_REMOTE_USED_FEATURES, line 818 *)
   (27%nat, 0x40, Always); (* LE_ENCRYPT, line 820 *)
   (27%nat, 0x80, Always); (* LE_RAND, line 822 *)
   (28%nat, 0x01, Always); (* LE_START_ENCRYPTION, line 824 *)
   (28%nat, 0x02, Always); (* LE_LONG_TERM_KEY_REQUEST_REPLY, line 826 *)
   (28%nat, 0x04, Always); (* LE_LONG_TERM_KEY_REQUEST_NEGATIVE_REPLY, line 828 *)
   (28%nat, 0x08, Always); (* LE_READ_SUPPORTED_STATES, line 830 *)
   (28%nat, 0x10, Always); (* LE_RECEIVER_TEST, line 832 *)
   (28%nat, 0x20, Always); (* LE_TRANSMITTER_TEST, line 834 *)
   (28%nat, 0x40, Always); (* LE_TEST_END, line 836 *)
   (29%nat, 0x08, Always); (* ENHANCED_SETUP_SYNCHRONOUS_CONNECTION, line 838 *)
   (29%nat, 0x10, Always); (* ENHANCED_ACCEPT_SYNCHRONOUS_CONNECTION, line 840 *)
   (29%nat, 0x20, Always); (* READ_LOCAL_SUPPORTED_CODECS, line 842 *)
   (29%nat, 0x40, Always); (* SET_MWS_CHANNEL_PARAMETERS_COMMAND, line 844 *)
   (29%nat, 0x80, Always); (* SET_EXTERNAL_FRAME_CONFIGURATION_COMMAND, line 846 *)
   (30%nat, 0x01, Always); (* SET_MWS_SIGNALING_COMMAND, line 848 *)
   (30%nat, 0x02, Always); (* SET_TRANSPORT_LAYER_COMMAND, line 850 *)
   (30%nat, 0x04, Always); (* SET_MWS_SCAN_FREQUENCY_TABLE_COMMAND, line 852 *)
   (30%nat, 0x08, Always); (* GET_TRANSPORT_LAYER_CONFIGURATION_COMMAND, line 854 *)
   (30%nat, 0x10, Always); (* SET_MWS_PATTERN_CONFIGURATION_COMMAND, line 856 *)
   (30%nat, 0x20, Always); (* SET_TRIGGERED_CLOCK_CAPTURE, line 858 *)
   (30%nat, 0x40, Always); (* TRUNCATED_PAGE, line 860 *)
   (30%nat, 0x80, Always); (* TRUNCATED_PAGE_CANCEL, line 862 *)
   (31%nat, 0x01, Always); (* SET_CONNECTIONLESS_PERIPHERAL_BROADCAST, line 864 *)
   (31%nat, 0x02, Always); (* SET_CONNECTIONLESS_PERIPHERAL_BROADCAST_RECEIVE, line 866 *)
   (31%nat, 0x04, Always); (* START_SYNCHRONIZATION_TRAIN, line 868 *)
   (31%nat, 0x08, Always); (* RECEIVE_SYNCHRONIZATION_TRAIN, line 870 *)
   (31%nat, 0x40, Always); (* SET_CONNECTIONLESS_PERIPHERAL_BROADCAST_DATA, line 872 *)
   (31%nat, 0x80, Always); (* READ_SYNCHRONIZATION_TRAIN_PARAMETERS, line 874 *)
   (32%nat, 0x01, Always); (* WRITE_SYNCHRONIZATION_TRAIN_PARAMETERS, line 876 *)
   (32%nat, 0x02, Always); (* REMOTE_OOB_EXTENDED_DATA_REQUEST_REPLY, line 878 *)
   (32%nat, 0x04, Always); (* READ_SECURE_CONNECTIONS_HOST_SUPPORT, line 880 *)
   (32%nat, 0x08, Always); (* WRITE_SECURE_CONNECTIONS_HOST_SUPPORT, line 882 *)
   (32%nat, 0x10, Always); (* READ_AUTHENTICATED_PAYLOAD_TIMEOUT, line 884 *)
   (32%nat, 0x20, Always); (* WRITE_AUTHENTICATED_PAYLOAD_TIMEOUT, line 886 *)
   (32%nat, 0x40, Always); (* READ_LOCAL_OOB_EXTENDED_DATA, line 888 *)
   (32%nat, 0x80, Always); (* WRITE_SECURE_CONNECTIONS_TEST_MODE, line 890 *)
   (33%nat, 0x01, Always); (* READ_EXTENDED_PAGE_TIMEOUT, line 892 *)
   (33%nat, 0x02, Always); (* WRITE_EXTENDED_PAGE_TIMEOUT, line 894 *)
   (33%nat, 0x04, Always); (* READ_EXTENDED_INQUIRY_LENGTH, line 896 *)
   (33%nat, 0x08, Always); (* WRITE_EXTENDED_INQUIRY_LENGTH, line 898 *)
   (33%nat, 0x10, Always); (* LE_REMOTE_CONNECTION_PARAMETER_REQUEST_REPLY_COMMAND, line 900 *)
   (33%nat, 0x20, Always); (* LE_REMOTE_CONNECTION_PARAMETER_REQUEST_NEGATIVE_REPLY_COMMAND, line 902 *)
   (33%nat, 0x40, Since42); (* LE_SET_DATA_LENGTH, line 905 *)
   (33%nat, 0x80, Since42); (* LE_READ_SUGGESTED_DEFAULT_DATA_LENGTH, line 908 *)
   (34%nat, 0x01, Since42); (* LE_WRITE_SUGGESTED_DEFAULT_DATA_LENGTH, line 911 *)
   (34%nat, 0x02, Since42); (* LE_READ_LOCAL_P256_PUBLIC_KEY, line 914 *)
   (34%nat, 0x04, Since42); (* LE_GENERATE_DH_KEY, line 917 *)
   (34%nat, 0x08, Since42); (* LE_ADD_DEVICE_TO_RESOLVING_LIST, line 920 *)
   (34%nat, 0x10, Since42); (* LE_REMOVE_DEVICE_FROM_RESOLVING_LIST, line 923 *)
   (34%nat, 0x20, Since42); (* LE_CLEAR_RESOLVING_LIST, line 926 *)
   (34%nat, 0x40, Since42); (* LE_READ_RESOLVING_LIST_SIZE, line 929 *)
   (34%nat, 0x80, Since42); (* LE_READ_PEER_RESOLVABLE_ADDRESS, line 932 *)
   (35%nat, 0x01, Since42); (* LE_READ_LOCAL_RESOLVABLE_ADDRESS, line 935 *)
   (35%nat, 0x02, Since42); (* LE_SET_ADDRESS_RESOLUTION_ENABLE, line 938 *)
   (35%nat, 0x04, Since42); (* LE_SET_RESOLVABLE_PRIVATE_ADDRESS_TIMEOUT, line 941 *)
   (35%nat, 0x08, Since42); (* LE_READ_MAXIMUM_DATA_LENGTH, line 944 *)
   (35%nat, 0x10, Since50); (* LE_READ_PHY_COMMAND, line 947 *)
   (35%nat, 0x20, Since50); (* LE_SET_DEFAULT_PHY_COMMAND, line 950 *)
   (35%nat, 0x40, Since50); (* LE_SET_PHY_COMMAND, line 953 *)
   (35%nat, 0x80, Since50); (* LE_ENHANCED_RECEIVER_TEST_COMMAND, line 956 *)
   (36%nat, 0x01, Since50); (* LE_ENHANCED_TRANSMITTER_TEST_COMMAND, line 959 *)
   (36%nat, 0x02, Since50); (* LE_SET_ADVERTISING_SET_RANDOM_ADDRESS_COMMAND, line 962 *)
   (36%nat, 0x04, Since50); (* LE_SET_EXTENDED_ADVERTISING_PARAMETERS_COMMAND, line 965 *)
   (36%nat, 0x08, Since50); (* LE_SET_EXTENDED_ADVERTISING_DATA_COMMAND, line 968 *)
   (36%nat, 0x10, Since50); (* LE_SET_EXTENDED_SCAN_RESPONSE_DATA_COMMAND, line 971 *)
   (36%nat, 0x20, Since50); (* LE_SET_EXTENDED_ADVERTISING_ENABLE_COMMAND, line 974 *)
   (36%nat, 0x40, Since50); (* LE_READ_MAXIMUM_ADVERTISING_DATA_LENGTH_COMMAND, line 977 *)
   (36%nat, 0x80, Since50); (* LE_READ_NUMBER_OF_SUPPORTED_ADVERTISING_SETS_COMMAND, line 980 *)
   (37%nat, 0x01, Since50); (* LE_REMOVE_ADVERTISING_SET_COMMAND, line 983 *)
   (37%nat, 0x02, Since50); (* LE_CLEAR_ADVERTISING_SETS_COMMAND, line 986 *)
   (37%nat, 0x04, Since50); (* LE_SET_PERIODIC_ADVERTISING_PARAMETERS_COMMAND, line 989 *)
   (37%nat, 0x08, Since50); (* LE_SET_PERIODIC_ADVERTISING_DATA_COMMAND, line 992 *)
   (37%nat, 0x10, Since50); (* LE_SET_PERIODIC_ADVERTISING_ENABLE_COMMAND, line 995 *)
   (37%nat, 0x20, Since50); (* LE_SET_EXTENDED_SCAN_PARAMETERS_COMMAND, line 998 *)
   (37%nat, 0x40, Since50); (* LE_SET_EXTENDED_SCAN_ENABLE_COMMAND, line 1001 *)
   (37%nat, 0x80, Since50); (* LE_EXTENDED_CREATE_CONNECTION_COMMAND, line 1004 *)
   (38%nat, 0x01, Since50); (* LE_PERIODIC_ADVERTISING_CREATE_SYNC_COMMAND, line 1007 *)
   (38%nat, 0x02, Since50); (* LE_PERIODIC_ADVERTISING_CREATE_SYNC_CANCEL_COMMAND, line 1010 *)
   (38%nat, 0x04, Since50); (* LE_PERIODIC_ADVERTISING_TERMINATE_SYNC_COMMAND, line 1013 *)
   (38%nat, 0x08, Since50); (* LE_ADD_DEVICE_TO_PERIODIC_ADVERTISER_LIST_COMMAND, line 1016 *)
   (38%nat, 0x10, Since50); (* LE_REMOVE_DEVICE_FROM_PERIODIC_ADVERTISER_LIST_COMMAND, line 1019 *)
   (38%nat, 0x20, Since50); (* LE_CLEAR_PERIODIC_ADVERTISER_LIST_COMMAND, line 1022 *)
   (38%nat, 0x40, Since50); (* LE_READ_PERIODIC_ADVERTISER_LIST_SIZE_COMMAND, line 1025 *)
   (38%nat, 0x80, Since50); (* LE_READ_TRANSMIT_POWER_COMMAND, line 1028 *)
   (39%nat, 0x01, Since50); (* LE_READ_RF_PATH_COMPENSATION_COMMAND, line 1031 *)
   (39%nat, 0x02, Since50); (* LE_WRITE_RF_PATH_COMPENSATION_COMMAND, line 1034 *)
   (39%nat, 0x04, Since50) (* LE_SET_PRIVACY_MODE, line 1037 *)
  ].

Definition COMMAND_FLAGS_SIZE : nat := 64. (* src/event/command.rs:424 *)
