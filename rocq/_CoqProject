-Q theories Verif
theories/Base.v
theories/Addr_Model.v
theories/Addr_Spec.v
theories/Addr_Proofs.v
theories/Addr_Properties.v
theories/Rtrie_Model.v
theories/Rtrie_Spec.v
theories/Rtrie_Proofs.v
theories/Rtrie_Steps.v
theories/Rtrie_Hist.v
theories/Rtrie_Key.v
theories/Eam_Model.v
theories/Eam_Spec.v
theories/Eam_Proofs.v
theories/Eam_Bits.v
theories/Eam_Values.v
theories/Eam_Properties.v
theories/Paging.v
theories/Deny_Model.v
theories/Deny_Spec.v
theories/Deny_Proofs.v
theories/Deny_Properties.v
theories/Pool4_Model.v
theories/Pool4_Spec.v
theories/Pool4_Proofs.v
theories/Pool4_Trees.v
theories/Pool4_Hist.v
theories/Pool4_Lookup.v
theories/Pool4_Enum.v
theories/Pool4_Safe.v
theories/Pool4_Listing.v
theories/Pool4_Properties.v
theories/Pool4_More.v
theories/Fsm_Model.v
theories/Fsm_Spec.v
theories/Fsm_Properties.v
theories/Bib_Model.v
theories/Rbtree_Model.v
theories/Rbtree_Properties.v
theories/Bib_Inv.v
theories/Bib_Steps.v
theories/Bib_Fate.v
theories/Bib_Find.v
theories/Bib_Add.v
theories/Bib_Ops.v
theories/KeyPaging.v
theories/Bib_Hist.v
theories/Bib_Time.v
theories/Bib_Listing.v
theories/Bib_Spec.v
theories/Bib_Properties.v
theories/Bib_Pool4.v
theories/Bib_Filter.v
theories/Bib_Life.v
theories/Bib_Idle.v
theories/Bib_Lists.v
theories/Nat64_Model.v
theories/Nat64_Spec.v
theories/Nat64_Properties.v
theories/Nat64_Errors.v
theories/Nat64_Hairpin.v
theories/Nat64_Safe.v
theories/Nat64_Pool4.v
theories/Nat64_Cases.v
theories/Joold_Model.v
theories/Joold_Spec.v
theories/Joold_Proofs.v
theories/Joold_Properties.v
theories/Joold_Codec.v
theories/Csum_Model.v
theories/Csum_Spec.v
theories/Csum_Proofs.v
theories/Csum_Properties.v
theories/Pkt_Model.v
theories/Pkt_Spec.v
theories/Pkt_Proofs.v
theories/Pkt_Properties.v
theories/Hdr_Model.v
theories/Hdr_Spec.v
theories/Hdr_Proofs.v
theories/Hdr_Properties.v
theories/Ext_Model.v
theories/Ext_Spec.v
theories/Ext_Proofs.v
theories/Ext_Properties.v
theories/Glob_Model.v
theories/Glob_Spec.v
theories/Glob_Proofs.v
theories/Glob_Properties.v
theories/Inst_Model.v
theories/Inst_Spec.v
theories/Inst_Proofs.v
theories/Inst_Properties.v
theories/Str_Model.v
theories/Str_Spec.v
theories/Str_Proofs.v
theories/Str_Properties.v
theories/Siit_Model.v
theories/Siit_Spec.v
theories/Siit_Proofs.v
theories/Siit_Properties.v
theories/Nest_Spec.v
theories/Nest_Trie.v
theories/Nest_Steps.v
theories/Nest_Eam.v
theories/Nest_Properties.v
theories/Xlat_Model.v
theories/Xlat_Spec.v
theories/Xlat_Proofs.v
theories/Xlat_Proofs46.v
theories/Xlat_Properties.v
theories/Trip_Spec.v
theories/Trip_Proofs.v
theories/Trip_Properties.v
theories/Icmperr_Spec.v
theories/Icmperr_Proofs.v
theories/Icmperr_Proofs46.v
theories/Icmperr_Properties.v
theories/Leak_Model.v
theories/Leak_Spec.v
theories/Leak_Proofs.v
theories/Leak_Properties.v
theories/Json_Model.v
theories/Json_Spec.v
theories/Json_Proofs.v
theories/Json_Safety.v
theories/Json_Properties.v
theories/File_Model.v
theories/File_Spec.v
theories/File_Objects.v
theories/File_Proofs.v
theories/File_Top.v
theories/File_Properties.v
theories/Load_Model.v
theories/Load_Spec.v
theories/Load_Proofs.v
theories/Load_Switch.v
theories/Load_Works.v
theories/Load_Properties.v
theories/Nla_Model.v
theories/Nla_Spec.v
theories/Nla_Proofs.v
theories/Nla_Properties.v
theories/Req_Model.v
theories/Req_Spec.v
theories/Req_Proofs.v
theories/Req_Properties.v
theories/Lst_Model.v
theories/Lst_Spec.v
theories/Lst_Proofs.v
theories/Lst_Pool4.v
theories/Lst_Properties.v
theories/Fate_Model.v
theories/Fate_Spec.v
theories/Fate_Proofs.v
theories/Fate_Stages.v
theories/Fate_Properties.v
theories/E2e_Model.v
theories/E2e_Spec.v
theories/E2e_Proofs.v
theories/E2e_Out.v
theories/E2e_Back.v
theories/E2e_Hairpin.v
theories/E2e_Properties.v
theories/E2e_Pool4.v
theories/E2e_Cases.v
theories/E2e_Err4.v
theories/E2e_Err6.v
theories/E2e_Errors.v
theories/Bib_Origin.v
theories/Bib_Keep.v
theories/E2e_Life.v
theories/E2e_Keep.v
theories/E2e_Lives.v
theories/E2e_Tcp.v
theories/E2e_TcpCases.v
theories/E2e_TcpHairpin.v
theories/E2e_Stored.v
theories/Bib_Est.v
theories/E2e_Est.v
theories/Sync_Model.v
theories/Sync_Spec.v
theories/Sync_Properties.v
theories/Sync_Have.v
theories/Stat_Model.v
theories/Stat_Spec.v
theories/Stat_Properties.v
theories/Errpool_Model.v
theories/Errpool_Spec.v
theories/Errpool_Properties.v
theories/S2e_Model.v
theories/S2e_Spec.v
theories/S2e_Proofs.v
theories/S2e_Properties.v
theories/S2e_Errors.v
theories/S2e_Cases.v
