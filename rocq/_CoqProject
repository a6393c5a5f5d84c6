-Q theories Verif
theories/Base.v
theories/S_Utf8.v
theories/P_Base.v
theories/M_Ws.v
theories/S_Ws.v
theories/S_WsApi.v
theories/P_Ws.v
theories/T_Ws.v
theories/M_Std.v
theories/M_Helper.v
theories/M_Header.v
theories/M_Url.v
theories/M_Http1.v
theories/S_Http1.v
theories/S_Http1Api.v
theories/S_Reason.v
theories/P_Std.v
theories/P_Helper.v
theories/P_Header.v
theories/P_Http1.v
theories/P_Msg.v
theories/T_Http1.v
theories/S_Hex.v
theories/P_Chunk.v
theories/T_Chunk.v
theories/S_Map.v
theories/P_Map.v
theories/T_Header.v
theories/S_Url.v
theories/P_Url.v
theories/P_UrlForm.v
theories/S_UrlAll.v
theories/P_UrlAll.v
theories/T_Url.v
theories/M_Huffman.v
theories/M_Hpack.v
theories/S_Huffman.v
theories/S_Hpack.v
theories/S_HpackApi.v
theories/S_Near.v
theories/P_Huffman.v
theories/T_Huffman.v
theories/P_Hpack.v
theories/P_HpackTable.v
theories/P_HpackCodec.v
theories/P_HpackSync.v
theories/T_Hpack.v
theories/P_Near.v
theories/T_Near.v
theories/M_Frame.v
theories/M_H2.v
theories/S_Frame.v
theories/S_H2Api.v
theories/P_Frame.v
theories/P_Settings.v
theories/P_Ctl.v
theories/P_Data.v
theories/T_Frame.v
theories/P_H2.v
theories/P_H2Msg.v
theories/S_H2Msg.v
theories/P_H2Req.v
theories/P_H2All.v
theories/P_H2Push.v
theories/P_Tight.v
theories/T_H2.v
theories/M_Ext.v
theories/S_Ext.v
theories/P_Ext.v
theories/T_Ext.v
theories/M_Build.v
theories/S_Build.v
theories/P_Build.v
theories/P_Build2.v
theories/P_Build3.v
theories/P_Build4.v
theories/T_Build.v
theories/S_Stream.v
theories/P_Stream.v
theories/S_Session.v
theories/P_Session.v
theories/S_WsTalk.v
theories/P_WsTalk.v
theories/T_Stream.v
theories/M_Write.v
theories/S_Write.v
theories/P_Write.v
theories/P_Host.v
theories/T_Write.v
theories/S_Exact.v
theories/P_UrlExact.v
theories/P_HttpExact.v
theories/P_H2Exact.v
theories/S_HpackAll.v
theories/P_Lossy.v
theories/P_HpackExact.v
theories/T_Exact.v
theories/M_Value.v
theories/S_Value.v
theories/P_Value.v
theories/T_Value.v
theories/M_Access.v
theories/S_Access.v
theories/P_Access.v
theories/T_Access.v
theories/M_Share.v
theories/S_Share.v
theories/P_Share.v
theories/P_Share2.v
theories/T_Share.v
theories/M_Text.v
theories/S_Text.v
theories/P_Text.v
theories/T_Text.v
theories/M_Object.v
theories/S_Object.v
theories/P_Object.v
theories/T_Object.v
theories/M_Full.v
theories/S_Full.v
theories/P_Full.v
theories/T_Full.v
theories/S_FrameAll.v
theories/P_FrameAll.v
theories/T_FrameAll.v
theories/S_Wait.v
theories/P_Wait.v
theories/T_Wait.v
theories/M_Small.v
theories/S_Small.v
theories/P_Small.v
theories/T_Small.v
theories/P_More.v
theories/T_More.v
theories/S_Refuse.v
theories/P_Refuse.v
theories/T_Refuse.v
theories/S_Reject.v
theories/P_Reject.v
theories/T_Reject.v
theories/S_WsAll.v
theories/P_WsAll.v
theories/T_WsAll.v
theories/M_Cursor.v
theories/S_Cursor.v
theories/P_Cursor.v
theories/P_Cursor2.v
theories/P_Cursor3.v
theories/T_Cursor.v
theories/S_Bound.v
theories/P_Bound.v
theories/T_Bound.v
theories/S_WriteAll.v
theories/P_WriteAll.v
theories/T_WriteAll.v
theories/S_Rfc9112.v
theories/P_Rfc9112.v
theories/T_Rfc9112.v
theories/P_RfcLax.v
theories/T_RfcLax.v
theories/S_Rfc9113.v
theories/P_Rfc9113.v
theories/T_Rfc9113.v
theories/S_Rfc6455.v
theories/P_Rfc6455.v
theories/T_Rfc6455.v
theories/S_RfcBody.v
theories/P_RfcBody.v
theories/T_RfcBody.v
theories/S_RfcMessage.v
theories/P_RfcMessage.v
theories/T_RfcMessage.v
theories/S_RfcReply.v
theories/P_RfcReply.v
theories/T_RfcReply.v
theories/S_RfcMeans.v
theories/P_RfcMeans.v
theories/T_RfcMeans.v
theories/S_Rfc3986.v
theories/P_Rfc3986.v
theories/T_Rfc3986.v
theories/S_RfcSend.v
theories/P_RfcSend.v
theories/T_RfcSend.v
theories/S_RfcFrames.v
theories/P_RfcFrames.v
theories/T_RfcFrames.v
theories/S_RfcTalk.v
theories/P_RfcTalk.v
theories/T_RfcTalk.v
theories/S_Exactly.v
theories/P_Exactly.v
theories/T_Exactly.v
theories/S_RfcAsk.v
theories/P_RfcAsk.v
theories/T_RfcAsk.v
theories/S_RfcShow.v
theories/P_RfcShow.v
theories/T_RfcShow.v
theories/S_RfcRelay.v
theories/P_RfcRelay.v
theories/T_RfcRelay.v
theories/S_RfcVia.v
theories/P_RfcVia.v
theories/T_RfcVia.v
theories/S_RfcOn.v
theories/P_RfcOn.v
theories/T_RfcOn.v
theories/S_RfcCarry.v
theories/P_RfcCarry.v
theories/T_RfcCarry.v
theories/S_RfcAgain.v
theories/P_RfcAgain.v
theories/T_RfcAgain.v
theories/S_RfcSecret.v
theories/P_RfcSecret.v
theories/T_RfcSecret.v
theories/S_RfcChunk.v
theories/P_RfcChunk.v
theories/T_RfcChunk.v
theories/S_Hops.v
theories/P_Hops.v
theories/T_Hops.v
theories/S_Via.v
theories/P_Via.v
theories/T_Via.v
theories/S_WsHops.v
theories/P_WsHops.v
theories/T_WsHops.v
theories/S_Gates.v
theories/P_Gates.v
theories/T_Gates.v
theories/S_Redirect.v
theories/P_Redirect.v
theories/T_Redirect.v
theories/S_Packets.v
theories/P_Packets.v
theories/T_Packets.v
theories/S_Net.v
theories/P_Net.v
theories/T_Net.v
theories/M_Names.v
theories/S_Names.v
theories/P_Names.v
theories/T_Names.v
theories/S_Crash.v
theories/P_Crash.v
theories/T_Crash.v
theories/S_Keep.v
theories/P_Keep.v
theories/T_Keep.v
theories/S_Own.v
theories/P_Own.v
theories/T_Own.v
theories/S_Mux.v
theories/P_Mux.v
theories/T_Mux.v
theories/T_Ints.v
theories/T_Rest.v
