-Q theories Verif
theories/Base.v
theories/G_Enums.v
theories/M_Raw.v
theories/M_Entry.v
theories/M_Bitfield.v
theories/G_Layouts.v
theories/M_Bios.v
theories/M_System.v
theories/M_BaseBoard.v
theories/M_Enclosure.v
theories/M_Processor.v
theories/M_Cache.v
theories/M_PortConnector.v
theories/M_SystemSlots.v
theories/M_Strings.v
theories/M_GroupAssociations.v
theories/M_SystemEventLog.v
theories/M_PhysicalMemoryArray.v
theories/M_MemoryDevice.v
theories/M_Memory.v
theories/M_PortableBattery.v
theories/M_Iter.v
theories/M_Accessors.v
theories/T_Data.v
theories/Spec.v
theories/L_Base.v
theories/S_Entry.v
theories/L_Entry.v
theories/P_Entry.v
theories/L_Utf8.v
theories/L_Strings.v
theories/P_Strings.v
theories/S_Iter.v
theories/L_Iter.v
theories/L_After.v
theories/L_Frame.v
theories/P_Iter.v
theories/S_Enums.v
theories/L_Enums.v
theories/P_Enums.v
theories/S_Decode.v
theories/L_Decode.v
theories/S_System.v
theories/L_System.v
theories/L_Enclosure.v
theories/P_System.v
theories/S_Hardware.v
theories/L_Hardware.v
theories/L_Cache.v
theories/L_Slots.v
theories/P_Hardware.v
theories/S_Lists.v
theories/L_Lists.v
theories/P_Lists.v
theories/S_EventLog.v
theories/L_EventLog.v
theories/P_EventLog.v
theories/S_Memory.v
theories/L_Memory.v
theories/L_Array.v
theories/L_Battery.v
theories/P_Memory.v
theories/S_Safety.v
theories/L_Safety.v
theories/P_Safety.v
theories/S_Bitfield.v
theories/L_Bitfield.v
theories/P_Bitfield.v
theories/P_Packed.v
theories/M_Display.v
theories/S_Text.v
theories/S_TextValues.v
theories/L_Text.v
theories/S_EnumTexts.v
theories/L_Texts.v
theories/L_Texts2.v
theories/P_Text.v
theories/S_Errors.v
theories/L_Errors.v
theories/P_Errors.v
theories/M_Hash.v
theories/S_Hash.v
theories/L_Hash.v
theories/P_Hash.v
theories/S_Table.v
theories/L_Table.v
theories/S_Builds.v
theories/L_Builds.v
theories/P_Table.v
theories/T_Tests.v
theories/S_Local.v
theories/L_Local.v
theories/P_Local.v
theories/S_Versions.v
theories/L_Versions.v
theories/P_Versions.v
theories/L_Lazy.v
theories/P_Lazy.v
theories/L_Slices.v
theories/P_Slices.v
theories/L_Huge.v
theories/P_Huge.v
theories/S_Origin.v
theories/L_Origin.v
theories/P_Origin.v
theories/S_Write.v
theories/L_Write.v
theories/P_Write.v
theories/M_Use.v
theories/S_Use.v
theories/L_Use.v
theories/L_Width.v
theories/P_Use.v
theories/M_Eq.v
theories/G_Eq.v
theories/L_Eq.v
theories/L_GEq.v
theories/S_Same.v
theories/L_Same.v
theories/P_Same.v
theories/S_Reveal.v
theories/L_Reveal.v
theories/P_Reveal.v
theories/S_BitNames.v
theories/L_BitNames.v
theories/P_BitNames.v
theories/S_Names.v
theories/L_Names.v
theories/P_Names.v
theories/M_Flags.v
theories/S_Flags.v
theories/L_Flags.v
theories/P_Flags.v
theories/S_Values.v
theories/L_Values.v
theories/P_Values.v
theories/S_Float.v
theories/L_Float.v
theories/P_Float.v
theories/M_Cost.v
theories/S_Cost.v
theories/L_Cost.v
theories/P_Cost.v
theories/M_Endian.v
theories/S_Endian.v
theories/L_Endian.v
theories/P_Endian.v
theories/M_Debug.v
theories/L_Handmade.v
theories/P_Handmade.v
theories/P_Width.v
theories/S_Debug.v
theories/L_Debug.v
theories/P_Debug.v
theories/M_BitfieldEq.v
theories/L_BitfieldEq.v
theories/P_BitfieldEq.v
theories/M_EndianDecoders.v
theories/S_EndianDecoders.v
theories/L_EndianDecoders.v
theories/P_EndianDecoders.v
theories/M_Show.v
theories/G_Show.v
theories/S_Show.v
theories/L_Show.v
theories/L_GShow.v
theories/L_Fits.v
theories/L_Shown.v
theories/P_Show.v
theories/M_BitShow.v
theories/S_BitShow.v
theories/L_BitShow.v
theories/P_BitShow.v
theories/S_ShowFields.v
theories/S_ShowCodes.v
theories/L_ShowFields.v
theories/L_ShowCodes.v
theories/P_ShowFields.v
theories/S_Damage.v
theories/L_Damage.v
theories/P_Damage.v
theories/S_Cut.v
theories/L_Cut.v
theories/P_Cut.v
theories/S_Longer.v
theories/L_Longer.v
theories/P_Longer.v
theories/S_Reworded.v
theories/L_Reworded.v
theories/P_Reworded.v
theories/S_Order.v
theories/L_Order.v
theories/P_Order.v
theories/M_Default.v
theories/S_Default.v
theories/P_Default.v
theories/S_BitPrint.v
theories/L_BitPrint.v
theories/P_BitPrint.v
theories/M_Stream.v
theories/S_Stream.v
theories/L_Stream.v
theories/L_GStream.v
theories/L_StreamRead.v
theories/L_StreamAll.v
theories/P_Stream.v
theories/S_Resync.v
theories/L_Resync.v
theories/P_Resync.v
theories/P_Announced.v
theories/S_Client.v
theories/L_Client.v
theories/P_Client.v
theories/S_Lookup.v
theories/L_Lookup.v
theories/P_Lookup.v
theories/S_Turns.v
theories/L_Turns.v
theories/P_Turns.v
theories/M_CostDecoders.v
theories/S_CostDecoders.v
theories/L_CostDecoders.v
theories/P_CostDecoders.v
theories/L_ValuesMore.v
theories/P_ValuesMore.v
theories/M_Methods.v
theories/S_Methods.v
theories/L_Methods.v
theories/P_Methods.v
theories/S_Places.v
theories/L_Places.v
theories/L_PlacesUse.v
theories/P_Places.v
theories/S_Deciding.v
theories/L_Deciding.v
theories/L_DecidingUse.v
theories/P_Deciding.v
theories/S_Counted.v
theories/L_Counted.v
theories/P_Counted.v
theories/S_Milestones.v
theories/L_Milestones.v
theories/P_Milestones.v
theories/S_Accepted.v
theories/L_Accepted.v
theories/P_Accepted.v
