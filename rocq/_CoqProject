-Q theories Verif
theories/Base.v
theories/M_Bits.v
theories/S_Bits.v
theories/L_Bits.v
theories/L_BitsW.v
theories/P_Bits.v
theories/M_IO.v
theories/S_IO.v
theories/L_IO.v
theories/P_IO.v
theories/M_Packet.v
theories/M_Flv.v
theories/S_Flv.v
theories/L_Flv.v
theories/P_Flv.v
theories/M_Cache.v
theories/S_Cache.v
theories/L_Cache.v
theories/P_Cache.v
theories/M_Live.v
theories/S_Live.v
theories/L_LiveSet.v
theories/L_Live.v
theories/L_Live2.v
theories/L_Live3.v
theories/P_Live.v
theories/M_Fields.v
theories/S_Fields.v
theories/L_Align.v
theories/L_Pack.v
theories/M_H264.v
theories/M_AAC.v
theories/S_Codec.v
theories/L_H264.v
theories/L_AAC.v
theories/P_Codec.v
theories/M_Rtp.v
theories/S_Rtp.v
theories/L_Rtp.v
theories/L_Rtp2.v
theories/P_Rtp.v
theories/M_Ts.v
theories/S_Ts.v
theories/L_Ts.v
theories/L_Ts2.v
theories/L_Ts3.v
theories/L_Ts4.v
theories/L_Ts5.v
theories/L_Ts6.v
theories/L_TsEx.v
theories/P_Ts.v
theories/M_Text.v
theories/M_Http.v
theories/S_Http.v
theories/L_Http.v
theories/L_Http2.v
theories/L_Http3.v
theories/P_Http.v
theories/M_Url.v
theories/S_Url.v
theories/L_Url.v
theories/P_Url.v
theories/M_Conf.v
theories/M_Host.v
theories/S_Conf.v
theories/L_Conf.v
theories/P_Conf.v
theories/S_Host.v
theories/L_Host.v
theories/P_Host.v
theories/M_Rtmp.v
theories/S_Rtmp.v
theories/L_Rtmp.v
theories/P_Rtmp.v
theories/M_RtmpSess.v
theories/S_RtmpSess.v
theories/L_RtmpSess.v
theories/P_RtmpSess.v
theories/M_Udp.v
theories/S_Udp.v
theories/L_Udp.v
theories/P_Udp.v
theories/M_Srt.v
theories/S_Srt.v
theories/L_Srt.v
theories/P_Srt.v
theories/M_Tls.v
theories/S_Tls.v
theories/L_Tls.v
theories/P_Tls.v
theories/M_RtpDemux.v
theories/S_RtpDemux.v
theories/L_RtpDemux.v
theories/P_RtpDemux.v
theories/M_Stream.v
theories/S_Stream.v
theories/L_Stream.v
theories/P_Stream.v
theories/M_RtmpRelay.v
theories/S_RtmpRelay.v
theories/L_RtmpRelay.v
theories/P_RtmpRelay.v
theories/M_Serve.v
theories/S_Serve.v
theories/L_Serve.v
theories/P_Serve.v
theories/M_Https.v
theories/S_Https.v
theories/L_Https.v
theories/P_Https.v
theories/M_Upload.v
theories/S_Upload.v
theories/L_Upload.v
theories/P_Upload.v
theories/M_HttpConn.v
theories/S_HttpConn.v
theories/L_HttpConn.v
theories/P_HttpConn.v
theories/M_Edge.v
theories/S_Edge.v
theories/L_Edge.v
theories/P_Edge.v
theories/M_RtmpReply.v
theories/S_Amf.v
theories/L_Amf.v
theories/P_RtmpReply.v
theories/M_Wait.v
theories/S_Wait.v
theories/L_Wait.v
theories/P_Wait.v
theories/M_Log.v
theories/S_Log.v
theories/L_Log.v
theories/P_Log.v
theories/M_Co.v
theories/S_Co.v
theories/L_Co.v
theories/P_Co.v
theories/M_SrtConn.v
theories/P_SrtConn.v
theories/M_Tcp.v
theories/P_Tcp.v
theories/M_File.v
theories/L_File.v
theories/P_File.v
theories/M_HParse.v
theories/S_HParse.v
theories/L_HParse.v
theories/P_HParse.v
theories/M_Shipped.v
theories/S_Shipped.v
theories/L_Shipped.v
theories/P_Shipped.v
theories/S_Header.v
theories/P_Header.v
theories/M_FFmpeg.v
theories/S_FFmpeg.v
theories/L_FFmpeg.v
theories/P_FFmpeg.v
theories/S_Readers.v
theories/L_Readers.v
theories/P_Readers.v
theories/S_TsNew.v
theories/L_TsNew.v
theories/P_TsNew.v
theories/S_Cross.v
theories/L_Cross.v
theories/P_Cross.v
theories/S_CrossR.v
theories/L_CrossR.v
theories/P_CrossR.v
theories/S_Hold.v
theories/L_Hold.v
theories/P_Hold.v
theories/M_Clock.v
theories/S_Clock.v
theories/L_Clock.v
theories/P_Clock.v
theories/M_Opt.v
theories/S_Opt.v
theories/L_Opt.v
theories/P_Opt.v
theories/M_Count.v
theories/P_Count.v
theories/P_Times.v
theories/M_Get.v
theories/S_Get.v
theories/L_Get.v
theories/P_Get.v
theories/M_UdpClient.v
theories/S_UdpClient.v
theories/L_UdpClient.v
theories/P_UdpClient.v
theories/M_Avc.v
theories/S_Avc.v
theories/L_Avc.v
theories/P_Avc.v
theories/M_BlackHole.v
theories/S_BlackHole.v
theories/L_BlackHole.v
theories/P_BlackHole.v
theories/S_Mesh.v
theories/L_Mesh.v
theories/P_Mesh.v
theories/L_Until.v
theories/P_Until.v
theories/L_MeshT.v
theories/P_MeshT.v
theories/S_TsMap.v
theories/L_TsMap.v
theories/P_TsMap.v
theories/S_TsAll.v
theories/L_TsAll.v
theories/P_TsAll.v
theories/L_TsOut.v
theories/P_TsOut.v
theories/S_RtpAll.v
theories/L_RtpAll.v
theories/P_RtpAll.v
theories/S_RtmpAll.v
theories/L_RtmpAll.v
theories/P_RtmpAll.v
theories/M_TsUp.v
theories/L_TsUp.v
theories/P_TsUp.v
theories/S_FlvOut.v
theories/L_FlvOut.v
theories/P_FlvOut.v
theories/S_ConfAll.v
theories/L_ConfAll.v
theories/P_ConfAll.v
theories/S_HttpOut.v
theories/L_HttpOut.v
theories/P_HttpOut.v
theories/S_EdgeOut.v
theories/L_EdgeOut.v
theories/P_EdgeOut.v
theories/S_HttpEnd.v
theories/L_HttpEnd.v
theories/P_HttpEnd.v
theories/S_EdgeEnd.v
theories/L_EdgeEnd.v
theories/P_EdgeEnd.v
theories/P_RtmpEnd.v
theories/M_Time.v
theories/P_Time.v
theories/P_RtpTime.v
theories/P_RtpSound.v
theories/P_RtpFlv.v
theories/P_HCalls.v
theories/P_HostMerge.v
