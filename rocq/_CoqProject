-Q theories Verif
theories/Base.v
theories/Str_Spec.v
theories/Ac_Model.v
theories/Ac_Proofs.v
theories/Ac_Any_Proofs.v
theories/Ac_Props.v
theories/Ac_Any_Props.v
theories/Ac_Free_Props.v
theories/Meta_Model.v
theories/Meta_Proofs.v
theories/Meta_Props.v
theories/S5_Spec.v
theories/S5_Model.v
theories/S5_Proofs.v
theories/S5_Props.v
theories/S5_Req_Props.v
theories/S5_Auth_Props.v
theories/Relay_Model.v
theories/Relay_Proofs.v
theories/Relay_Props.v
theories/Hash_Model.v
theories/Hash_Props.v
theories/Dns_Model.v
theories/Dns_Spec.v
theories/Dns_Proofs.v
theories/Dns_Props.v
theories/Dns_Plain_Props.v
theories/Dns_Cache_Props.v
theories/Heap_Model.v
theories/Heap_Proofs.v
theories/Heap_Props.v
theories/Timer_Model.v
theories/Timer_Props.v
theories/Clock_Props.v
theories/Queue_Model.v
theories/Queue_Proofs.v
theories/Queue_Props.v
theories/Pool_Model.v
theories/Pool_Proofs.v
theories/Pool_Props.v
theories/Arr_Model.v
theories/Arr_Props.v
theories/Http_Model.v
theories/Http_Spec.v
theories/Http_Proofs.v
theories/Http_Props.v
theories/Send_Model.v
theories/Send_Props.v
theories/Web_Model.v
theories/Web_Spec.v
theories/Web_Proofs.v
theories/Web_Props.v
theories/Web_Session_Props.v
theories/Proc_Model.v
theories/Proc_Proofs.v
theories/Proc_Props.v
theories/Conf_Model.v
theories/Conf_Props.v
theories/Ev_Model.v
theories/Ev_Proofs.v
theories/Ev_Props.v
theories/Sel_Model.v
theories/Sel_Props.v
theories/Reach.v
theories/Life_Model.v
theories/Life_Proofs.v
theories/Life_Spec.v
theories/Life_Props.v
theories/Ssl_Model.v
theories/Ssl_Props.v
theories/Find_Model.v
theories/Find_Props.v
theories/Ring_Model.v
theories/Ring_Props.v
theories/Bst_Model.v
theories/Bst_Proofs.v
theories/Bst_Props.v
theories/Json_Model.v
theories/Json_Spec.v
theories/Json_Proofs.v
theories/Json_Doc_Proofs.v
theories/Json_Cut_Proofs.v
theories/Json_Props.v
theories/Json_Limit_Props.v
theories/Json_Lax_Spec.v
theories/Json_Lax_Proofs.v
theories/Json_Lax_Props.v
theories/Auth_Model.v
theories/Auth_Props.v
theories/Acc_Model.v
theories/Acc_Props.v
theories/Init_Model.v
theories/Init_Props.v
theories/S5_Dial_Props.v
theories/Http_Bad_Props.v
theories/Web_Answer_Props.v
theories/Http_Split_Props.v
theories/Web_Split_Props.v
theories/Conf_Start_Props.v
theories/Relay_Any_Props.v
theories/Time_Model.v
theories/Time_Spec.v
theories/Time_Props.v
theories/Tun_Model.v
theories/Tun_Spec.v
theories/Tun_Proofs.v
theories/Tun_Polite_Proofs.v
theories/Tun_Props.v
theories/Sig_Model.v
theories/Sig_Props.v
theories/Stop_Model.v
theories/Stop_Props.v
theories/Read_Model.v
theories/Read_Props.v
theories/Cert_Model.v
theories/Cert_Props.v
theories/Tun_Live_Spec.v
theories/Tun_Live_Proofs.v
theories/Tun_Live_Props.v
theories/Wcon_Model.v
theories/Wcon_Spec.v
theories/Wcon_Proofs.v
theories/Wcon_Props.v
theories/Look_Model.v
theories/Look_Props.v
theories/Cipher_Model.v
theories/Cipher_Props.v
theories/Hmem_Model.v
theories/Hmem_Props.v
theories/Down_Model.v
theories/Down_Props.v
theories/Cmd_Model.v
theories/Cmd_Spec.v
theories/Cmd_Props.v
theories/Jprint_Model.v
theories/Jprint_Spec.v
theories/Jprint_Proofs.v
theories/Jprint_Props.v
theories/Jdbl_Model.v
theories/Jdbl_Props.v
theories/Jmin_Model.v
theories/Jmin_Spec.v
theories/Jmin_Proofs.v
theories/Jmin_Props.v
theories/Jlist_Model.v
theories/Jlist_Spec.v
theories/Jlist_Proofs.v
theories/Jlist_Props.v
theories/Jcmp_Model.v
theories/Jcmp_Spec.v
theories/Jcmp_Proofs.v
theories/Jcmp_Props.v
theories/Looks_Model.v
theories/Looks_Spec.v
theories/Looks_Props.v
theories/Mix_Model.v
theories/Mix_Spec.v
theories/Mix_Props.v
theories/Twr_Model.v
theories/Twr_Props.v
theories/Lfd_Model.v
theories/Lfd_Props.v
theories/Idle_Model.v
theories/Idle_Props.v
theories/Jdup_Model.v
theories/Jdup_Spec.v
theories/Jdup_Proofs.v
theories/Jdup_Props.v
theories/Jobj_Model.v
theories/Jobj_Spec.v
theories/Jobj_Proofs.v
theories/Jobj_Props.v
theories/Jref_Props.v
theories/Jset_Model.v
theories/Jset_Props.v
theories/Lost_Model.v
theories/Lost_Props.v
theories/Port_Model.v
theories/Port_Props.v
theories/Num_Model.v
theories/Num_Props.v
theories/Http_Lead_Props.v
theories/Wmem_Model.v
theories/Wmem_Props.v
theories/Drain_Model.v
theories/Drain_Props.v
theories/Fair_Model.v
theories/Fair_Props.v
theories/Sout_Model.v
theories/Sout_Props.v
theories/Wlog_Model.v
theories/Wlog_Props.v
theories/Web_Equiv_Props.v
theories/Peer_Model.v
theories/Peer_Props.v
theories/Web_Pieces_Props.v
theories/Web_Grow_Props.v
theories/Web_Chunk_Props.v
theories/Check_Model.v
theories/Check_Props.v
theories/Web_Post_Props.v
theories/Jsign_Model.v
theories/Jsign_Props.v
theories/Web_Status_Props.v
theories/Gtext_Model.v
theories/Gtext_Props.v
theories/Gtext_Read_Props.v
theories/Jdoc_Proofs.v
theories/Jdoc_Props.v
theories/Jinj_Props.v
theories/Jinj_Dbl_Props.v
