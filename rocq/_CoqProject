-Q theories Verif
theories/Base.v
theories/BaseFacts.v
theories/M_Util.v
theories/S_Wire.v
theories/F_Util.v
theories/P_Util.v
theories/M_Prefix.v
theories/S_Prefix.v
theories/F_Prefix.v
theories/P_Prefix.v
theories/M_Nlri.v
theories/S_Nlri.v
theories/F_Nlri.v
theories/F_Nlri2.v
theories/P_Nlri.v
theories/M_Cap.v
theories/M_Open.v
theories/M_Session.v
theories/S_Cap.v
theories/S_Open.v
theories/F_Cap.v
theories/F_Open.v
theories/F_Session.v
theories/P_Cap.v
theories/P_Open.v
theories/P_Session.v
theories/M_Vpls.v
theories/S_Vpls.v
theories/F_Lay.v
theories/F_Vpls.v
theories/P_Vpls.v
theories/M_Mvpn.v
theories/S_Mvpn.v
theories/F_Mvpn.v
theories/P_Mvpn.v
theories/M_Evpn.v
theories/S_Evpn.v
theories/F_Evpn.v
theories/P_Evpn.v
theories/M_Flowspec.v
theories/S_Flowspec.v
theories/F_Flowspec.v
theories/P_Flowspec.v
theories/M_Addrs.v
theories/S_Addrs.v
theories/F_Fuel.v
theories/F_Addrs.v
theories/P_Addrs.v
theories/M_Attr.v
theories/S_Attr.v
theories/F_Attr.v
theories/F_Attr2.v
theories/P_Attr.v
theories/M_Update.v
theories/S_Update.v
theories/F_Update.v
theories/P_Update.v
theories/M_Order.v
theories/S_Order.v
theories/F_Order.v
theories/P_Order.v
theories/M_Bmp.v
theories/S_Bmp.v
theories/F_Bmp.v
theories/F_Bmp2.v
theories/P_Bmp.v
theories/M_Text.v
theories/S_Text.v
theories/F_Text.v
theories/F_Text2.v
theories/P_Text.v
theories/F_Prefix2.v
theories/S_Attr2.v
theories/F_Attr3.v
theories/P_Attr2.v
theories/M_Peer.v
theories/S_Peer.v
theories/F_Peer.v
theories/F_Refute.v
theories/P_Peer.v
theories/M_Text2.v
theories/S_Text2.v
theories/F_Text3.v
theories/F_Text4.v
theories/F_Text5.v
theories/P_Text2.v
theories/M_Serde.v
theories/S_Serde.v
theories/F_Serde.v
theories/F_Serde2.v
theories/S_Serde2.v
theories/F_Serde3.v
theories/F_Serde4.v
theories/F_Serde5.v
theories/F_Serde6.v
theories/P_Serde.v
theories/M_Debug.v
theories/S_Debug.v
theories/F_Debug.v
theories/F_Debug2.v
theories/F_Debug3.v
theories/P_Debug.v
theories/S_Attr3.v
theories/F_Attr4.v
theories/P_Attr3.v
theories/S_Exact.v
theories/F_Exact.v
theories/F_Exact2.v
theories/F_Exact3.v
theories/F_Exact4.v
theories/P_Exact.v
theories/S_Exact2.v
theories/F_Exact5.v
theories/F_Exact6.v
theories/P_Exact2.v
theories/S_Exact3.v
theories/F_Utf8.v
theories/F_Exact7.v
theories/P_Exact3.v
theories/S_Exact4.v
theories/F_Exact8.v
theories/P_Exact4.v
theories/S_Forward.v
theories/F_Forward.v
theories/P_Forward.v
theories/S_Panic.v
theories/F_Panic.v
theories/F_Panic2.v
theories/F_Panic3.v
theories/F_Panic4.v
theories/F_Panic5.v
theories/P_Panic.v
theories/S_Room.v
theories/F_Room.v
theories/F_Room2.v
theories/F_Room3.v
theories/F_Room4.v
theories/F_Room5.v
theories/F_Room6.v
theories/F_Room7.v
theories/P_Room.v
theories/S_Stop.v
theories/F_Stop.v
theories/F_Stop2.v
theories/F_Stop3.v
theories/F_Stop4.v
theories/P_Stop.v
theories/S_Size.v
theories/F_Size.v
theories/P_Size.v
theories/M_Build.v
theories/S_Build.v
theories/F_Build.v
theories/P_Build.v
theories/S_Short.v
theories/F_Short.v
theories/P_Short.v
theories/M_State.v
theories/S_State.v
theories/F_State.v
theories/P_State.v
theories/S_Sort.v
theories/F_Sort.v
theories/P_Sort.v
theories/S_Long.v
theories/F_Long.v
theories/P_Long.v
theories/S_Cut.v
theories/F_Cut.v
theories/P_Cut.v
theories/S_Kinds.v
theories/F_Kinds.v
theories/F_Kinds2.v
theories/F_Kinds3.v
theories/P_Kinds.v
theories/S_Parse.v
theories/F_Parse.v
theories/P_Parse.v
theories/M_Traits.v
theories/S_Traits.v
theories/F_Traits.v
theories/P_Traits.v
theories/M_Debug2.v
theories/S_Debug2.v
theories/F_Debug4.v
theories/F_Debug5.v
theories/F_Debug6.v
theories/P_Debug2.v
theories/M_Small.v
theories/S_Small.v
theories/F_Small.v
theories/P_Small.v
theories/S_Mvpn2.v
theories/F_Mvpn2.v
theories/S_Ranges.v
theories/F_Ranges.v
theories/F_Ranges2.v
theories/P_Ranges.v
theories/S_Join.v
theories/F_Join.v
theories/F_Join2.v
theories/F_Join3.v
theories/F_Join4.v
theories/P_Join.v
theories/S_Grow.v
theories/F_Grow.v
theories/P_Grow.v
theories/S_Hear.v
theories/F_Hear.v
theories/P_Hear.v
theories/S_Station.v
theories/F_Station.v
theories/P_Station.v
theories/M_Client.v
theories/S_Client.v
theories/F_Client.v
theories/P_Client.v
theories/M_Error.v
theories/S_Error.v
theories/F_Error.v
theories/P_Error.v
theories/S_Eor.v
theories/F_Eor.v
theories/P_Eor.v
theories/S_Builds.v
theories/F_Builds.v
theories/P_Builds.v
theories/S_Place.v
theories/F_Place.v
theories/P_Place.v
theories/S_FsRule.v
theories/F_FsRule.v
theories/P_FsRule.v
theories/S_Hop.v
theories/F_Hop.v
theories/P_Hop.v
theories/S_Group.v
theories/F_Group.v
theories/P_Group.v
theories/S_Once.v
theories/F_Once.v
theories/P_Once.v
theories/S_Snpa.v
theories/F_Snpa.v
theories/P_Snpa.v
theories/S_RFlag.v
theories/F_RFlag.v
theories/P_RFlag.v
theories/F_Accept.v
theories/P_Accept.v
theories/S_Pad.v
theories/F_Pad.v
theories/P_Pad.v
theories/S_Relabel.v
theories/F_Relabel.v
theories/P_Relabel.v
