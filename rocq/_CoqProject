-Q theories Verif
theories/Py.v
theories/S_Base.v
theories/L_Py.v
theories/M_utils.v
theories/M_util.v
theories/L_utils.v
theories/L_util.v
theories/LP_util.v
theories/P_util.v
theories/LP_ownerpin.v
theories/M_ownerpin.v
theories/P_ownerpin.v
theories/S_OwnerPIN.v
theories/LP_aid.v
theories/M_aid.v
theories/P_aid.v
theories/M_apdu.v
theories/S_APDU.v
theories/L_apdu.v
theories/LP_apdu.v
theories/P_apdu.v
theories/M_bignumber.v
theories/M_jcint.v
theories/S_Number.v
theories/LP_bignumber.v
theories/P_bignumber.v
theories/S_BigNumber.v
theories/LP_jcint.v
theories/P_jcint.v
theories/M_bertag.v
theories/S_BER.v
theories/LP_bertag.v
theories/P_bertag.v
theories/M_bertlv.v
theories/LP_bertlv.v
theories/P_bertlv.v
theories/S_TLV.v
theories/LP_des.v
theories/LP_tdes.v
theories/L_des.v
theories/M_des.v
theories/P_des.v
theories/P_tdes.v
theories/S_DES.v
theories/LP_cipher.v
theories/LP_keys.v
theories/M_cipher.v
theories/M_key.v
theories/P_cipher.v
theories/P_keys.v
theories/S_Cipher.v
theories/S_Key.v
theories/LP_system.v
theories/M_digest.v
theories/M_system.v
theories/P_system.v
theories/S_System.v
theories/S_ApduObs.v
theories/S_Samples.v
theories/LP_full1.v
theories/P_full1.v
theories/S_Full1.v
theories/LP_full2.v
theories/P_full2.v
theories/S_Full2.v
theories/LP_desx.v
theories/P_desx.v
theories/S_DESX.v
theories/LP_desset.v
theories/M_desx.v
theories/P_desset.v
theories/S_DesSettings.v
theories/LP_rsa.v
theories/M_signature.v
theories/P_rsa.v
theories/S_RSA.v
theories/LP_world.v
theories/M_world.v
theories/P_world.v
theories/S_World.v
theories/LP_tree.v
theories/M_tree.v
theories/P_tree.v
theories/S_Tree.v
theories/LP_algebra.v
theories/LP_bigrun.v
theories/LP_exc.v
theories/LP_tagobj.v
theories/LP_tagstat.v
theories/M_bigrun.v
theories/M_exc.v
theories/M_tagobj.v
theories/P_algebra.v
theories/P_bigrun.v
theories/P_exc.v
theories/P_tagobj.v
theories/P_tagstat.v
theories/S_BigRun.v
theories/S_Exc.v
theories/S_TagObj.v
theories/LP_pinref.v
theories/M_rsaapplet.v
theories/P_pinref.v
theories/S_PinRef.v
theories/S_RsaApplet.v
theories/LP_rsaapplet.v
theories/P_rsaapplet.v
theories/LP_despad.v
theories/LP_desstr.v
theories/M_desstr.v
theories/P_despad.v
theories/P_desstr.v
theories/S_DesPad.v
theories/S_DesStr.v
theories/T_tests.v
theories/LP_apduheap.v
theories/LP_keyheap.v
theories/LP_lookup.v
theories/LP_tlvheap.v
theories/M_apduheap.v
theories/M_keyheap.v
theories/M_lookup.v
theories/M_tlvheap.v
theories/P_apduheap.v
theories/P_keyheap.v
theories/P_lookup.v
theories/P_tlvheap.v
theories/S_ApduHeap.v
theories/S_KeyHeap.v
theories/S_Lookup.v
theories/S_TlvHeap.v
theories/LP_apduref.v
theories/P_apduref.v
theories/S_ApduRef.v
theories/LP_tlvterm.v
theories/P_tlvterm.v
theories/S_TlvTerm.v
theories/S_TagStat.v
theories/LP_session.v
theories/M_session.v
theories/P_session.v
theories/S_Session.v
theories/LP_cla.v
theories/M_cla.v
theories/P_cla.v
theories/S_Cla.v
theories/LP_apdubytes.v
theories/LP_arrayall.v
theories/M_apdubytes.v
theories/P_apdubytes.v
theories/P_arrayall.v
theories/S_ApduBytes.v
theories/S_ArrayAll.v
theories/S_DigestAll.v
theories/LP_tlvlife.v
theories/M_tlvlife.v
theories/P_tlvlife.v
theories/S_TlvLife.v
theories/LP_consts.v
theories/LP_tlvexact.v
theories/M_consts.v
theories/P_consts.v
theories/P_tlvexact.v
theories/S_Consts.v
theories/LP_imports.v
theories/M_import.v
theories/M_imptab.v
theories/P_imports.v
theories/S_Import.v
theories/LP_classes.v
theories/M_classes.v
theories/P_classes.v
theories/S_Classes.v
theories/LP_signed.v
theories/P_signed.v
theories/S_Signed.v
theories/LP_buf.v
theories/LP_tlvfind.v
theories/M_bufheap.v
theories/P_buf.v
theories/P_tlvfind.v
theories/S_Buf.v
theories/S_TlvFind.v
theories/LP_applet.v
theories/M_applet.v
theories/P_applet.v
theories/S_Applet.v
theories/LP_tlvnext.v
theories/LP_tlvparse.v
theories/P_tlvnext.v
theories/P_tlvparse.v
theories/S_Errors.v
theories/S_TlvParse.v
theories/LP_errors.v
theories/P_errors.v
theories/LP_atomic.v
theories/P_atomic.v
theories/S_Atomic.v
theories/LP_jbytes.v
theories/P_jbytes.v
theories/S_Bytes.v
theories/LP_local.v
theories/LP_return.v
theories/P_local.v
theories/P_return.v
theories/S_Local.v
theories/S_Return.v
theories/LP_javatype.v
theories/P_javatype.v
theories/S_JavaType.v
theories/M_pincard.v
theories/S_PinCard.v
theories/LP_pincard.v
theories/P_pincard.v
theories/LP_descard.v
theories/M_descard.v
theories/P_descard.v
theories/S_DesCard.v
theories/LP_purse.v
theories/M_purse.v
theories/P_purse.v
theories/S_Purse.v
theories/LP_chal.v
theories/M_chalcard.v
theories/P_chal.v
theories/S_Chal.v
theories/LP_hashcard.v
theories/M_hashcard.v
theories/P_hashcard.v
theories/S_HashCard.v
theories/LP_datacard.v
theories/M_datacard.v
theories/P_datacard.v
theories/S_DataCard.v
