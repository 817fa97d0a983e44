-Q theories Verif

theories/Base.v
theories/Model_Types.v
theories/Model_Bitflags.v
theories/Model_Intervals.v
theories/Model_EventBase.v
theories/Model_Command.v
theories/Model_Event.v
theories/Model_Host.v
theories/Spec_Wire.v
theories/Spec_Interval.v
theories/Spec_Errors.v
theories/Proofs_Base.v
theories/Proofs_Bits.v
theories/Proofs_Interval.v
theories/Proofs_Event.v
theories/Proofs_Errors.v
theories/Proofs_Command.v
theories/Spec_Report.v
theories/Proofs_Report.v
theories/Proofs_Panic.v
theories/Spec_Vendor.v
theories/Proofs_Vendor.v
theories/Proofs_Complete.v
theories/Spec_Example.v
theories/Proofs_Types.v
theories/Properties_Event.v
theories/Properties_Command.v
theories/Proofs_Serialize.v
theories/Proofs_Time.v
theories/Properties_Interval.v
theories/Spec_Flags.v
theories/Proofs_Flags.v
theories/Properties_Flags.v
theories/Spec_Adv.v
theories/Proofs_Adv.v
theories/Spec_Host.v
theories/Proofs_Host.v
theories/Proofs_Calls.v
theories/Proofs_Streams.v
theories/Spec_Link.v
theories/Proofs_Link.v
theories/Proofs_Address.v
theories/Proofs_Send.v
theories/Properties_Serialize.v
theories/Properties_Host.v
theories/Proofs_Queue.v
theories/Properties_Link.v
theories/Spec_Versions.v
theories/Proofs_Versions.v
theories/Proofs_Loss.v
theories/Properties_Versions.v
theories/Model_FlagNames.v
theories/Spec_FlagNames.v
theories/Proofs_FlagNames.v
theories/Properties_FlagNames.v
theories/Spec_Core.v
theories/Proofs_Core.v
theories/Properties_Core.v
theories/Spec_Made.v
theories/Proofs_Made.v
theories/Spec_Common.v
theories/Proofs_Common.v
theories/Properties_Made.v
theories/Model_Debug.v
theories/Spec_Debug.v
theories/Proofs_Debug.v
theories/Spec_Numerals.v
theories/Proofs_Numerals.v
theories/Properties_Debug.v
theories/Tests_Types.v
theories/Tests_Event.v
theories/Tests_Command.v
theories/Tests_Host.v
theories/Spec_Conform.v
theories/Proofs_Conform.v
theories/Properties_Conform.v
theories/Spec_Sent.v
theories/Proofs_Sent.v
theories/Properties_Sent.v
theories/Spec_Accepted.v
theories/Proofs_Accepted.v
theories/Properties_Accepted.v
theories/Model_Doc.v
theories/Spec_Retry.v
theories/Proofs_Retry.v
theories/Properties_Retry.v
theories/Spec_Dialogue.v
theories/Proofs_Dialogue.v
theories/Properties_Dialogue.v
theories/Model_Access.v
theories/Spec_Repeat.v
theories/Proofs_Repeat.v
theories/Properties_Repeat.v
theories/Spec_Split.v
theories/Proofs_Split.v
theories/Properties_Split.v
theories/Spec_Pass.v
theories/Proofs_Pass.v
theories/Properties_Pass.v
theories/Spec_Blame.v
theories/Proofs_Blame.v
theories/Properties_Blame.v
theories/Spec_Device.v
theories/Proofs_Device.v
theories/Properties_Device.v
theories/Spec_Air.v
theories/Proofs_Air.v
theories/Properties_Air.v
theories/Spec_Same.v
theories/Proofs_Same.v
theories/Properties_Same.v
theories/Spec_Enabled.v
theories/Proofs_Enabled.v
theories/Properties_Enabled.v
theories/Spec_Follow.v
theories/Proofs_Follow.v
theories/Properties_Follow.v
theories/Spec_Credit.v
theories/Proofs_Credit.v
theories/Properties_Credit.v
theories/Spec_Watch.v
theories/Proofs_Watch.v
theories/Properties_Watch.v
theories/Spec_Loop.v
theories/Proofs_Loop.v
theories/Properties_Loop.v
theories/Spec_Demand.v
theories/Proofs_Demand.v
theories/Properties_Demand.v
theories/Model_Release.v
theories/Proofs_Release.v
theories/Properties_Release.v
theories/Spec_Network.v
theories/Proofs_Network.v
theories/Properties_Network.v
theories/Spec_Damage.v
theories/Proofs_Damage.v
theories/Properties_Damage.v
theories/Model_SetOps.v
theories/Spec_Sets.v
theories/Proofs_Sets.v
theories/Properties_Sets.v
theories/Spec_Known.v
theories/Proofs_Known.v
theories/Properties_Known.v
theories/Model_VendorCall.v
theories/Spec_VendorCall.v
theories/Proofs_VendorCall.v
theories/Properties_VendorCall.v
theories/Model_Word.v
theories/Spec_Word.v
theories/Proofs_Word.v
theories/Properties_Word.v
theories/Spec_Ask.v
theories/Proofs_Ask.v
theories/Properties_Ask.v
theories/Spec_Lost.v
theories/Proofs_Lost.v
theories/Properties_Lost.v
theories/Spec_Faults.v
theories/Proofs_Faults.v
theories/Properties_Faults.v
theories/Spec_Facts.v
theories/Proofs_Facts.v
theories/Properties_Facts.v
theories/Spec_Reading.v
theories/Proofs_Reading.v
theories/Properties_Reading.v
theories/Model_Log.v
theories/Spec_Log.v
theories/Proofs_LogText.v
theories/Proofs_LogFlags.v
theories/Proofs_LogTypes.v
theories/Proofs_LogEvent.v
theories/Proofs_LogReturn.v
theories/Proofs_Log.v
theories/Properties_Log.v
theories/Spec_Program.v
theories/Proofs_Program.v
theories/Properties_Program.v
theories/Spec_Data.v
theories/Proofs_Data.v
theories/Properties_Data.v
theories/Spec_Window.v
theories/Proofs_Window.v
theories/Properties_Window.v
theories/Proofs_Further.v
theories/Properties_Further.v
theories/Spec_Turns.v
theories/Proofs_Turns.v
theories/Properties_Turns.v
theories/Spec_Own.v
theories/Proofs_Own.v
theories/Properties_Own.v
theories/Spec_Apart.v
theories/Proofs_Apart.v
theories/Properties_Apart.v
theories/Spec_Keys.v
theories/Proofs_Keys.v
theories/Properties_Keys.v
theories/Spec_Secure.v
theories/Proofs_Secure.v
theories/Properties_Secure.v
theories/Spec_Live.v
theories/Proofs_Live.v
theories/Properties_Live.v
theories/Spec_Names.v
theories/Proofs_NamesText.v
theories/Proofs_Names.v
theories/Proofs_NamesUnique.v
theories/Properties_Names.v
theories/Spec_LiveOwn.v
theories/Proofs_LiveOwn.v
theories/Properties_LiveOwn.v
theories/Model_Equal.v
theories/Spec_Equal.v
theories/Proofs_Equal.v
theories/Properties_Equal.v
theories/Spec_LiveApart.v
theories/Proofs_LiveApart.v
theories/Properties_LiveApart.v
theories/Spec_Crash.v
theories/Proofs_Crash.v
theories/Properties_Crash.v
theories/Spec_Threads.v
theories/Proofs_Threads.v
theories/Properties_Threads.v
theories/Spec_Restart.v
theories/Proofs_Restart.v
theories/Properties_Restart.v
theories/Spec_Share.v
theories/Proofs_Share.v
theories/Properties_Share.v
theories/Spec_Scan.v
theories/Proofs_Scan.v
theories/Properties_Scan.v
theories/Spec_Update.v
theories/Proofs_Update.v
theories/Properties_Update.v
theories/Spec_Meet.v
theories/Proofs_Meet.v
theories/Properties_Meet.v
theories/Spec_Refuse.v
theories/Proofs_Refuse.v
theories/Properties_Refuse.v
theories/Spec_Several.v
theories/Proofs_Several.v
theories/Properties_Several.v
theories/Spec_Approved.v
theories/Proofs_Approved.v
theories/Properties_Approved.v
theories/Spec_Learn.v
theories/Proofs_Learn.v
theories/Properties_Learn.v
theories/Spec_Rest.v
theories/Proofs_Rest.v
theories/Properties_Rest.v
theories/Spec_Done.v
theories/Proofs_Done.v
theories/Properties_Done.v
theories/Spec_Granted.v
theories/Proofs_Granted.v
theories/Properties_Granted.v
theories/Spec_Deliver.v
theories/Proofs_Deliver.v
theories/Properties_Deliver.v
theories/Spec_Mixed.v
theories/Proofs_Mixed.v
theories/Properties_Mixed.v
