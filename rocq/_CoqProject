-Q theories Verif
theories/Acl2_Proofs.v
theories/Acl_Model.v
theories/Acl_Proofs.v
theories/Acl_Props.v
theories/Acl_Spec.v
theories/Ael2_Proofs.v
theories/Ael3_Proofs.v
theories/Ael_Model.v
theories/Ael_Proofs.v
theories/Ael_Props.v
theories/Ael_Spec.v
theories/Base64_Model.v
theories/Base64_Proofs.v
theories/Base64_Props.v
theories/Base64_Spec.v
theories/Block_Model.v
theories/Block_Proofs.v
theories/Block_Props.v
theories/Block_Spec.v
theories/Buf_Model.v
theories/Buf_Proofs.v
theories/Buf_Props.v
theories/Buf_Spec.v
theories/Cli2_Proofs.v
theories/Cli3_Proofs.v
theories/Cli4_Proofs.v
theories/Cli5_Proofs.v
theories/Cli6_Proofs.v
theories/Cli7_Proofs.v
theories/Cli8_Proofs.v
theories/Cli_Model.v
theories/Cli_Proofs.v
theories/Cli_Props.v
theories/Cli_Spec.v
theories/Cloud2_Proofs.v
theories/Cloud3_Proofs.v
theories/Cloud_Model.v
theories/Cloud_Proofs.v
theories/Cloud_Props.v
theories/Cloud_Spec.v
theories/Cm2_Proofs.v
theories/Cm3_Proofs.v
theories/Cm4_Proofs.v
theories/Cm5_Proofs.v
theories/Cm6_Proofs.v
theories/Cm7_Proofs.v
theories/Cm8_Proofs.v
theories/Cm_Model.v
theories/Cm_Proofs.v
theories/Cm_Props.v
theories/Cm_Spec.v
theories/Coap_Bounds.v
theories/Coap_Model.v
theories/Coap_Proofs.v
theories/Coap_Props.v
theories/Coap_Spec.v
theories/Col2_Proofs.v
theories/Col3_Proofs.v
theories/Col4_Proofs.v
theories/Col5_Proofs.v
theories/Col6_Proofs.v
theories/Col_Model.v
theories/Col_Proofs.v
theories/Col_Props.v
theories/Col_Spec.v
theories/Common.v
theories/Con_Model.v
theories/Con_Proofs.v
theories/Con_Props.v
theories/Con_Spec.v
theories/Crc_Model.v
theories/Crc_Proofs.v
theories/Crc_Props.v
theories/Crc_Spec.v
theories/Cred2_Proofs.v
theories/Cred3_Proofs.v
theories/Cred4_Proofs.v
theories/Cred_Model.v
theories/Cred_Proofs.v
theories/Cred_Props.v
theories/Cred_Spec.v
theories/Cres_Model.v
theories/Cres_Proofs.v
theories/Cres_Props.v
theories/Cres_Spec.v
theories/Crt2_Proofs.v
theories/Crt_Model.v
theories/Crt_Proofs.v
theories/Crt_Props.v
theories/Crt_Spec.v
theories/Dedup_Model.v
theories/Dedup_Proofs.v
theories/Dedup_Props.v
theories/Dedup_Spec.v
theories/Delay_Model.v
theories/Delay_Proofs.v
theories/Delay_Props.v
theories/Delay_Spec.v
theories/Dhc2_Proofs.v
theories/Dhc3_Proofs.v
theories/Dhc_Model.v
theories/Dhc_Proofs.v
theories/Dhc_Props.v
theories/Dhc_Spec.v
theories/Disc2_Proofs.v
theories/Disc3_Proofs.v
theories/Disc4_Proofs.v
theories/Disc5_Proofs.v
theories/Disc_Model.v
theories/Disc_Proofs.v
theories/Disc_Props.v
theories/Disc_Spec.v
theories/Dpr_Model.v
theories/Dpr_Proofs.v
theories/Dpr_Props.v
theories/Dpr_Spec.v
theories/Dps2_Proofs.v
theories/Dps3_Proofs.v
theories/Dps4_Proofs.v
theories/Dps5_Proofs.v
theories/Dps6_Proofs.v
theories/Dps_Model.v
theories/Dps_Proofs.v
theories/Dps_Props.v
theories/Dps_Spec.v
theories/Dst_Model.v
theories/Dst_Proofs.v
theories/Dst_Props.v
theories/Dst_Spec.v
theories/Ea2_Proofs.v
theories/Ea_Model.v
theories/Ea_Proofs.v
theories/Ea_Props.v
theories/Ea_Spec.v
theories/Ep2_Proofs.v
theories/Ep3_Proofs.v
theories/Ep4_Proofs.v
theories/Ep_Model.v
theories/Ep_Proofs.v
theories/Ep_Props.v
theories/Ep_Spec.v
theories/Etag2_Proofs.v
theories/Etag_Model.v
theories/Etag_Proofs.v
theories/Etag_Props.v
theories/Etag_Spec.v
theories/Etimer_Model.v
theories/Etimer_Proofs.v
theories/Etimer_Props.v
theories/Etimer_Spec.v
theories/Evq_Model.v
theories/Evq_Proofs.v
theories/Evq_Props.v
theories/Evq_Spec.v
theories/Hex2_Proofs.v
theories/Hex_Model.v
theories/Hex_Proofs.v
theories/Hex_Props.v
theories/Hex_Spec.v
theories/Hs_Model.v
theories/Hs_Proofs.v
theories/Hs_Props.v
theories/Hs_Spec.v
theories/Jd2_Proofs.v
theories/Jd3_Proofs.v
theories/Jd_Model.v
theories/Jd_Proofs.v
theories/Jd_Props.v
theories/Jd_Spec.v
theories/Je2_Proofs.v
theories/Je_Model.v
theories/Je_Proofs.v
theories/Je_Props.v
theories/Je_Spec.v
theories/Jp2_Proofs.v
theories/Jp3_Proofs.v
theories/Jp4_Proofs.v
theories/Jp5_Proofs.v
theories/Jp_Model.v
theories/Jp_Proofs.v
theories/Jp_Props.v
theories/Jp_Spec.v
theories/Kp2_Proofs.v
theories/Kp_Model.v
theories/Kp_Proofs.v
theories/Kp_Props.v
theories/Kp_Spec.v
theories/List_Model.v
theories/List_Proofs.v
theories/List_Props.v
theories/List_Spec.v
theories/Memb_Model.v
theories/Memb_Proofs.v
theories/Memb_Props.v
theories/Memb_Spec.v
theories/Mmem_Model.v
theories/Mmem_Proofs.v
theories/Mmem_Props.v
theories/Mmem_Spec.v
theories/Msg2_Proofs.v
theories/Msg3_Proofs.v
theories/Msg4_Proofs.v
theories/Msg_Model.v
theories/Msg_Proofs.v
theories/Msg_Props.v
theories/Msg_Spec.v
theories/Net2_Proofs.v
theories/Net_Model.v
theories/Net_Proofs.v
theories/Net_Props.v
theories/Net_Spec.v
theories/Ntf2_Proofs.v
theories/Ntf3_Proofs.v
theories/Ntf4_Proofs.v
theories/Ntf5_Proofs.v
theories/Ntf6_Proofs.v
theories/Ntf_Model.v
theories/Ntf_Proofs.v
theories/Ntf_Props.v
theories/Ntf_Spec.v
theories/Ob2_Proofs.v
theories/Ob_Model.v
theories/Ob_Proofs.v
theories/Ob_Props.v
theories/Ob_Spec.v
theories/Obs2_Proofs.v
theories/Obs3_Proofs.v
theories/Obs4_Proofs.v
theories/Obs_Model.v
theories/Obs_Proofs.v
theories/Obs_Props.v
theories/Obs_Spec.v
theories/Obt2_Proofs.v
theories/Obt3_Proofs.v
theories/Obt4_Proofs.v
theories/Obt5_Proofs.v
theories/Obt_Model.v
theories/Obt_Proofs.v
theories/Obt_Props.v
theories/Obt_Spec.v
theories/Oscore_Model.v
theories/Oscore_Proofs.v
theories/Oscore_Props.v
theories/Oscore_Spec.v
theories/Osx2_Proofs.v
theories/Osx3_Proofs.v
theories/Osx4_Proofs.v
theories/Osx5_Proofs.v
theories/Osx_Model.v
theories/Osx_Proofs.v
theories/Osx_Props.v
theories/Osx_Spec.v
theories/Otm2_Proofs.v
theories/Otm3_Proofs.v
theories/Otm4_Proofs.v
theories/Otm5_Proofs.v
theories/Otm6_Proofs.v
theories/Otm7_Proofs.v
theories/Otm_Model.v
theories/Otm_Proofs.v
theories/Otm_Props.v
theories/Otm_Spec.v
theories/Pt_Model.v
theories/Pt_Proofs.v
theories/Pt_Props.v
theories/Pt_Spec.v
theories/Ptag2_Proofs.v
theories/Ptag_Model.v
theories/Ptag_Proofs.v
theories/Ptag_Props.v
theories/Ptag_Spec.v
theories/Query2_Proofs.v
theories/Query_Model.v
theories/Query_Proofs.v
theories/Query_Props.v
theories/Query_Spec.v
theories/Rd2_Proofs.v
theories/Rd3_Proofs.v
theories/Rd4_Proofs.v
theories/Rd5_Proofs.v
theories/Rd6_Proofs.v
theories/Rd_Model.v
theories/Rd_Proofs.v
theories/Rd_Props.v
theories/Rd_Spec.v
theories/Ref_Model.v
theories/Ref_Proofs.v
theories/Ref_Props.v
theories/Rep_Model.v
theories/Repd_Model.v
theories/Repd_Proofs.v
theories/Repd_Props.v
theories/Repd_Spec.v
theories/Ri2_Proofs.v
theories/Ri3_Proofs.v
theories/Ri_Model.v
theories/Ri_Proofs.v
theories/Ri_Props.v
theories/Ri_Spec.v
theories/Rol2_Proofs.v
theories/Rol3_Proofs.v
theories/Rol_Model.v
theories/Rol_Proofs.v
theories/Rol_Props.v
theories/Rol_Spec.v
theories/Sd2_Proofs.v
theories/Sd_Model.v
theories/Sd_Proofs.v
theories/Sd_Props.v
theories/Sd_Spec.v
theories/Sep_Model.v
theories/Sep_Proofs.v
theories/Sep_Props.v
theories/Sep_Spec.v
theories/Ses_Model.v
theories/Ses_Proofs.v
theories/Ses_Props.v
theories/Ses_Spec.v
theories/Swu2_Proofs.v
theories/Swu3_Proofs.v
theories/Swu4_Proofs.v
theories/Swu_Model.v
theories/Swu_Proofs.v
theories/Swu_Props.v
theories/Swu_Spec.v
theories/Tag2_Proofs.v
theories/Tag_Model.v
theories/Tag_Proofs.v
theories/Tag_Props.v
theories/Tag_Spec.v
theories/Tcp2_Proofs.v
theories/Tcp3_Proofs.v
theories/Tcp4_Proofs.v
theories/Tcp_Model.v
theories/Tcp_Proofs.v
theories/Tcp_Props.v
theories/Tcp_Spec.v
theories/Tlsq2_Proofs.v
theories/Tlsq3_Proofs.v
theories/Tlsq_Model.v
theories/Tlsq_Proofs.v
theories/Tlsq_Props.v
theories/Tlsq_Spec.v
theories/Trans_Model.v
theories/Trans_Proofs.v
theories/Trans_Props.v
theories/Trans_Spec.v
theories/Ts2_Proofs.v
theories/Ts3_Proofs.v
theories/Ts4_Proofs.v
theories/Ts5_Proofs.v
theories/Ts_Model.v
theories/Ts_Proofs.v
theories/Ts_Props.v
theories/Ts_Spec.v
