{
 "claims": [
  {
   "property": "C01",
   "status": "proved",
   "theorems": [
    "C01_makeShort"
   ],
   "note": "All integers b1, b2."
  },
  {
   "property": "C02",
   "status": "proved",
   "theorems": [
    "C02_setShort_getShort"
   ],
   "note": "Includes the partial write of setShort at the last cell."
  },
  {
   "property": "C03",
   "status": "proved",
   "theorems": [
    "C03_arrayCopy_distinct"
   ],
   "note": ""
  },
  {
   "property": "C04",
   "status": "proved",
   "theorems": [
    "C04_bounds_exact",
    "C04_no_IndexError",
    "C04_fill_effect"
   ],
   "note": ""
  },
  {
   "property": "C05",
   "status": "partial",
   "theorems": [
    "C05_full_refuted",
    "C05_overlap_refuted",
    "C05_overlap_partial",
    "C05_overlap_right_exact"
   ],
   "note": "False for right-overlapping ranges (refuted); exact result of the overlapping copy proved instead."
  },
  {
   "property": "C06",
   "status": "partial",
   "theorems": [
    "C06_full_refuted",
    "C06_atomic_refuted",
    "C06_atomic_partial"
   ],
   "note": "False: transactions are no-ops. The exact partial write is proved."
  },
  {
   "property": "C07",
   "status": "proved",
   "theorems": [
    "C07_arrayCompare"
   ],
   "note": ""
  },
  {
   "property": "C08",
   "status": "partial",
   "theorems": [
    "C08_fill_partial",
    "C08_copy_partial",
    "C08_self_partial",
    "C08_self_unique",
    "C08_compare_partial",
    "C08_short_partial",
    "C08_full_refuted",
    "C08_negative_refuted",
    "C08_negative_partial"
   ],
   "note": "False: negative offsets wrap around; rejected only below -length. The results for all integer arguments are exact: C08_copy_partial (two distinct arrays; outcome, lengths and frame also for one array), C08_self_partial (one array copied into itself), C08_fill_partial, C08_compare_partial, C08_short_partial."
  },
  {
   "property": "C09",
   "status": "partial",
   "theorems": [
    "C09_full_refuted",
    "C09_nonAtomic_refuted",
    "C09_nonAtomic_partial"
   ],
   "note": "False: NameError instead of ArrayIndexOutOfBoundsException; everything else agrees with arrayCopy."
  },
  {
   "property": "C10",
   "status": "proved",
   "theorems": [
    "C10_sanatize",
    "C10_signed"
   ],
   "note": ""
  },
  {
   "property": "C11",
   "status": "proved",
   "theorems": [
    "C11_tries_in_range"
   ],
   "note": "Any history of calls with any arguments; tryLimit >= 0."
  },
  {
   "property": "C12",
   "status": "proved",
   "theorems": [
    "C12_blocked_stays_blocked"
   ],
   "note": "For every harmless history."
  },
  {
   "property": "C13",
   "status": "partial",
   "theorems": [
    "C13_full_refuted",
    "C13_failed_check_refuted",
    "C13_failed_check_partial",
    "C13_guesses_partial"
   ],
   "note": "False: IndexError escapes without costing a try when the range is longer than the PIN size; holds for all other ranges, and for whole guess histories."
  },
  {
   "property": "C14",
   "status": "partial",
   "theorems": [
    "C14_full_refuted",
    "C14_check_exact_partial",
    "C14_check_str_partial",
    "C14_check_full_length_partial",
    "C14_accepts_wrong_pin_refuted",
    "C14_too_long_refuted",
    "C14_rejects_right_pin_refuted"
   ],
   "note": "False for list PINs shorter than maxPINSize (both directions refuted) and for list candidates one longer than maxPINSize; exact acceptance criterion proved; full property for NUL-free str PINs and for full-length PINs."
  },
  {
   "property": "C15",
   "status": "partial",
   "theorems": [
    "C15_full_refuted",
    "C15_update_validates_refuted",
    "C15_update_partial"
   ],
   "note": "False of every successful update."
  },
  {
   "property": "C16",
   "status": "proved",
   "theorems": [
    "C16_validated_flag"
   ],
   "note": ""
  },
  {
   "property": "C17",
   "status": "proved",
   "theorems": [
    "C17_reset"
   ],
   "note": ""
  },
  {
   "property": "C18",
   "status": "proved",
   "theorems": [
    "C18_constructor",
    "C18_getBytes",
    "C18_equals",
    "C18_roundtrip"
   ],
   "note": "Constructor, getBytes, equals and their round trip."
  },
  {
   "property": "C19",
   "status": "proved",
   "theorems": [
    "C19_equality",
    "C19_eq_getBytes",
    "C19_prefixes"
   ],
   "note": ""
  },
  {
   "property": "C20",
   "status": "partial",
   "theorems": [
    "C20_getPartialBytes_refuted",
    "C20_getPartialBytes_partial",
    "C20_full_refuted"
   ],
   "note": "False: getPartialBytes always raises NameError when it should copy. What does hold is proved."
  },
  {
   "property": "C21",
   "status": "partial",
   "theorems": [
    "C21_size_refuted",
    "C21_size_partial",
    "C21_full_refuted"
   ],
   "note": "False for negative offsets; holds for non-negative offsets."
  },
  {
   "property": "C22",
   "status": "proved",
   "theorems": [
    "C22_constructor"
   ],
   "note": ""
  },
  {
   "property": "C23",
   "status": "proved",
   "theorems": [
    "C23_short"
   ],
   "note": ""
  },
  {
   "property": "C24",
   "status": "partial",
   "theorems": [
    "C24_case3E_refuted",
    "C24_le_refuted",
    "C24_extended_partial",
    "C24_full_refuted"
   ],
   "note": "False of every case 3E command and of every Le that is a multiple of 256 other than 65536; the rest of 2E/4E holds (getOffsetCdata is 5 for 2E)."
  },
  {
   "property": "C25",
   "status": "proved",
   "theorems": [
    "C25_receive_loop"
   ],
   "note": "Every accepted command, any fuel above the data length."
  },
  {
   "property": "C26",
   "status": "partial",
   "theorems": [
    "C26_case2S_refuted",
    "C26_counts_partial",
    "C26_copied_partial",
    "C26_full_refuted"
   ],
   "note": "False of every 5-byte command (-1); otherwise 0..128 in every history."
  },
  {
   "property": "C27",
   "status": "proved",
   "theorems": [
    "C27_response",
    "C27_bounds",
    "C27_setOutgoingAndSend"
   ],
   "note": "Any sequence of in-bounds sends, interleaved with buffer writes."
  },
  {
   "property": "C28",
   "status": "partial",
   "theorems": [
    "C28_second_length_refuted",
    "C28_send_early_refuted",
    "C28_sendBytesLong_refuted",
    "C28_order_partial",
    "C28_full_refuted"
   ],
   "note": "False: setOutgoingLength repeatable, sendBytes allowed before it, sendBytesLong raises AttributeError; the rest holds in every history."
  },
  {
   "property": "C29",
   "status": "partial",
   "theorems": [
    "C29_oversend_refuted",
    "C29_limits_partial",
    "C29_full_refuted"
   ],
   "note": "False: one byte more than announced can always be sent; total <= 256 and announced <= Le hold."
  },
  {
   "property": "C30",
   "status": "partial",
   "theorems": [
    "C30_cla_refuted",
    "C30_cla_partial",
    "C30_full_refuted"
   ],
   "note": "False after a send; holds in every history without successful sends."
  },
  {
   "property": "C31",
   "status": "partial",
   "theorems": [
    "C31_six_bytes_refuted",
    "C31_too_short_refuted",
    "C31_short_partial",
    "C31_extended_partial",
    "C31_full_refuted"
   ],
   "note": "False (6-byte commands raise IndexError, some malformed extended commands are accepted); exact for the short format and exact description for the extended one."
  },
  {
   "property": "C32",
   "status": "proved",
   "theorems": [
    "C32_roundtrip"
   ],
   "note": "Both formats, any size, any offsets."
  },
  {
   "property": "C33",
   "status": "proved",
   "theorems": [
    "C33_init",
    "C33_arithmetic",
    "C33_compareTo",
    "C33_toBytes"
   ],
   "note": "Any sequence of calls on in-range operands."
  },
  {
   "property": "C34",
   "status": "partial",
   "theorems": [
    "C34_refuted",
    "C34_partial",
    "C34_full_refuted"
   ],
   "note": "False of every operand larger than the number (the negative number is then written as zeros); exact difference otherwise."
  },
  {
   "property": "C35",
   "status": "partial",
   "theorems": [
    "C35_refuted",
    "C35_full_refuted"
   ],
   "note": "False: no in-range byte string is ever rejected."
  },
  {
   "property": "C36",
   "status": "partial",
   "theorems": [
    "C36_refuted",
    "C36_partial",
    "C36_full_refuted"
   ],
   "note": "False for every capacity: no operation looks at maxBytes; only the constructor check holds."
  },
  {
   "property": "C37",
   "status": "partial",
   "theorems": [
    "C37_refuted",
    "C37_partial",
    "C37_full_refuted"
   ],
   "note": "False of an init running past the array; holds of add, subtract, multiply and of every other failing init."
  },
  {
   "property": "C38",
   "status": "partial",
   "theorems": [
    "C38_setInt_any_partial",
    "C38_getInt_any_partial",
    "C38_full_refuted",
    "C38_makeInt_partial",
    "C38_makeInt_refuted",
    "C38_makeInt4_partial",
    "C38_setInt",
    "C38_getInt_partial",
    "C38_roundtrip_partial",
    "C38_roundtrip_refuted"
   ],
   "note": "setInt holds; makeInt and getInt add signed low parts (refuted, exact results proved). C38_setInt_any_partial and C38_getInt_any_partial give the results at every offset."
  },
  {
   "property": "C39",
   "status": "proved",
   "theorems": [
    "C39_encode",
    "C39_identifier",
    "C39_decode",
    "C39_roundtrip",
    "C39_any"
   ],
   "note": "Tag numbers of any size; encoding unique and minimal by the relational BER spec. C39_any gives the answer of getInstance for every array and integer offset."
  },
  {
   "property": "C40",
   "status": "partial",
   "theorems": [
    "C40_refuted",
    "C40_partial",
    "C40_full_refuted"
   ],
   "note": "False of every parsed tag above 30 (one too small) and of every tag built by init(class, number) (0); holds of parsed tags up to 30."
  },
  {
   "property": "C41",
   "status": "partial",
   "theorems": [
    "C41_refuted",
    "C41_partial",
    "C41_full_refuted"
   ],
   "note": "False: every cell above 127 of the output array is rewritten; holds on arrays of signed bytes."
  },
  {
   "property": "C42",
   "status": "partial",
   "theorems": [
    "C42_partial",
    "C42_high_tag_refuted",
    "C42_long_form_refuted",
    "C42_getLengthLen_partial",
    "C42_full_refuted",
    "C42_length_exact_partial",
    "C42_exact_partial"
   ],
   "note": "False for tag numbers above 30 (exact wrong result) and for long-form lengths (exact wrong result); proved for one-byte tags with short-form lengths, any offset, signed or unsigned bytes. C42_exact_partial and C42_length_exact_partial give the answer for every array and integer offset."
  },
  {
   "property": "C43",
   "status": "partial",
   "theorems": [
    "C43_partial",
    "C43_refuted",
    "C43_full_refuted",
    "C43_exact_partial"
   ],
   "note": "False: TLVs longer than 127 raise NameError; proved for one-byte tags with short-form lengths. The exact result and exception of toBytes is proved for every tag, offset from 0 on and output array."
  },
  {
   "property": "C44",
   "status": "partial",
   "theorems": [
    "C44_partial",
    "C44_static_partial",
    "C44_refuted",
    "C44_full_refuted",
    "C44_exact_partial",
    "C44_static_exact_partial",
    "C44_high_refuted"
   ],
   "note": "False whenever the first child has a tag number above 30 (C44_high_refuted: exact answers); proved (bound and static find) for every list of children with one-byte tags and short-form lengths. C44_exact_partial and C44_static_exact_partial give the answer for every value and tag: where the walk over the children stops."
  },
  {
   "property": "C45",
   "status": "partial",
   "theorems": [
    "C45_partial",
    "C45_refuted",
    "C45_full_refuted",
    "C45_exact_partial"
   ],
   "note": "findNext(None, ...) raises after the last child (refuted); proved for a given tag. C45_exact_partial gives the answers for every object, tag and number: counting the occurrences, then where the walk over the following children stops."
  },
  {
   "property": "C46",
   "status": "partial",
   "theorems": [
    "C46_refuted",
    "C46_partial",
    "C46_full_refuted",
    "C46_exact_partial",
    "C46_next_partial"
   ],
   "note": "False: a child of size 0 makes find loop for ever. Exact: find never ends if and only if the walk over the children comes back to a child already visited (C46_exact_partial); find and findNext end within a number of rounds known in advance or never, and always end when every child has a positive size, in particular for values of non-negative bytes (C46_partial, C46_next_partial)."
  },
  {
   "property": "C47",
   "status": "partial",
   "theorems": [
    "C47_partial",
    "C47_static_partial",
    "C47_refuted",
    "C47_long_refuted",
    "C47_full_refuted",
    "C47_exact_partial",
    "C47_high_tag_refuted"
   ],
   "note": "False for every tag made with init(class, number), for every minimal tag from 31 on however it was made, and for children longer than 127 bytes (object unchanged); the exact condition and the exact new value are proved for every tag, bound and static append for one-byte tags."
  },
  {
   "property": "C48",
   "status": "partial",
   "theorems": [
    "C48_refuted",
    "C48_partial",
    "C48_full_refuted"
   ],
   "note": "False: the object never changes; the returned size is right."
  },
  {
   "property": "C49",
   "status": "partial",
   "theorems": [
    "C49_refuted",
    "C49_partial",
    "C49_full_refuted",
    "C49_exact_partial"
   ],
   "note": "False: the static findNext never finds anything. C49_exact_partial gives the outcome for all arguments."
  },
  {
   "property": "C50",
   "status": "proved",
   "theorems": [
    "C50_kind_mismatch",
    "C50_getInstance_errors"
   ],
   "note": "getInstance and both init methods."
  },
  {
   "property": "C51",
   "status": "partial",
   "theorems": [
    "C51_partial",
    "C51_refuted",
    "C51_full_refuted"
   ],
   "note": "False on failing replaceValue (value already replaced); the successful case is proved."
  },
  {
   "property": "C52",
   "status": "proved",
   "theorems": [
    "C52_inverse"
   ],
   "note": "Every key, every block, after any calls on the object."
  },
  {
   "property": "C53",
   "status": "proved",
   "theorems": [
    "C53_fips",
    "C53_constructible"
   ],
   "note": "Against an independent transcription of FIPS 46-3; plus exactly which constructor arguments are accepted."
  },
  {
   "property": "C54",
   "status": "proved",
   "theorems": [
    "C54_parity"
   ],
   "note": "All data, modes, paddings and IVs, results and errors."
  },
  {
   "property": "C55",
   "status": "proved",
   "theorems": [
    "C55_roundtrip"
   ],
   "note": "ECB and CBC, aligned without padding and PKCS5, exact ciphertext lengths, after any calls on the object (an empty message without PKCS5 padding comes back as the str '': C111)."
  },
  {
   "property": "C56",
   "status": "proved",
   "theorems": [
    "C56_ede",
    "C56_constructible",
    "C56_degenerate",
    "C56_roundtrip",
    "C56_history"
   ],
   "note": "EDE in both modes, accepted arguments, degenerate keys, round trip, independence of earlier calls."
  },
  {
   "property": "C57",
   "status": "proved",
   "theorems": [
    "C57_ecb_cbc",
    "C57_history"
   ],
   "note": "Any number of blocks, after any calls; results and errors independent of earlier calls."
  },
  {
   "property": "C58",
   "status": "proved",
   "theorems": [
    "C58_encrypt",
    "C58_roundtrip",
    "C58_constructible"
   ],
   "note": "All keys, data, IVs and ranges, in any state reachable by calls; encryption against the FIPS spec and round trip, all four algorithms."
  },
  {
   "property": "C59",
   "status": "proved",
   "theorems": [
    "C59_history"
   ],
   "note": "Any history of update and doFinal calls, successful or not."
  },
  {
   "property": "C60",
   "status": "partial",
   "theorems": [
    "C60_refuted",
    "C60_update_partial",
    "C60_full_refuted"
   ],
   "note": "False: update discards its data, exact effect proved."
  },
  {
   "property": "C61",
   "status": "partial",
   "theorems": [
    "C61_refuted",
    "C61_partial",
    "C61_full_refuted"
   ],
   "note": "False: init stores the mode before its later checks, exact effect proved; C61_partial says what a failing init can change."
  },
  {
   "property": "C62",
   "status": "partial",
   "theorems": [
    "C62_refuted",
    "C62_full_refuted"
   ],
   "note": "False: ValueError is raised instead (every reachable cipher and unaligned length); the output is untouched."
  },
  {
   "property": "C63",
   "status": "partial",
   "theorems": [
    "C63_refuted",
    "C63_valid_partial",
    "C63_full_refuted"
   ],
   "note": "False: PKCS5 decryption never fails on whole blocks, exact wrong result; proved: valid padding is removed exactly."
  },
  {
   "property": "C64",
   "status": "partial",
   "theorems": [
    "C64_refuted",
    "C64_full_refuted"
   ],
   "note": "False exactly for messages that end with the pad byte (equivalence proved)."
  },
  {
   "property": "C65",
   "status": "partial",
   "theorems": [
    "C65_full_refuted",
    "C65_roundtrip",
    "C65_clear_refuted",
    "C65_short_refuted"
   ],
   "note": "The round trip holds; clearKey does nothing (refuted), and short key arrays are accepted (refuted)."
  },
  {
   "property": "C66",
   "status": "proved",
   "theorems": [
    "C66_private",
    "C66_public",
    "C66_unavailable",
    "C66_modulus_length"
   ],
   "note": "Any sequence of in-bounds setter calls; for public keys assuming pycrypto is installed and accepts the components, the other case proved separately."
  },
  {
   "property": "C67",
   "status": "partial",
   "theorems": [
    "C67_full_refuted",
    "C67_refuted"
   ],
   "note": "False for every history: the components first set stay in use."
  },
  {
   "property": "C68",
   "status": "partial",
   "theorems": [
    "C68_full_refuted",
    "C68_refuted"
   ],
   "note": "False for every generated key: exact wrong values."
  },
  {
   "property": "C69",
   "status": "proved",
   "theorems": [
    "C69_roundtrip",
    "C69_total",
    "C69_lax"
   ],
   "note": "Any random stream, key size and message; what the decoder accepts beyond the standard is stated in C69_lax."
  },
  {
   "property": "C70",
   "status": "partial",
   "theorems": [
    "C70_full_refuted",
    "C70_refuted",
    "C70_partial",
    "C70_getters_refuted"
   ],
   "note": "False for every n > 0: exact wrong result n/16."
  },
  {
   "property": "C71",
   "status": "partial",
   "theorems": [
    "C71_full_refuted",
    "C71_partial",
    "C71_refuted"
   ],
   "note": "Holds for types 1 to 5; CRT keys report type 5 and unsupported types return None."
  },
  {
   "property": "C72",
   "status": "partial",
   "theorems": [
    "C72_full_refuted",
    "C72_refuses",
    "C72_generates",
    "C72_unsupported",
    "C72_refuted",
    "C72_kinds"
   ],
   "note": "Refusal, generation, unsupported algorithms and constructor kinds proved; false for pairs built from keys (AttributeError)."
  },
  {
   "property": "C73",
   "status": "proved",
   "theorems": [
    "C73_any_offsets",
    "C73",
    "C73_getInstance"
   ],
   "note": "Any hash function of fixed output length, any history of reset, update and doFinal calls with non-negative offsets, successful or not."
  },
  {
   "property": "C74",
   "status": "partial",
   "theorems": [
    "C74_update_partial",
    "C74_full_refuted",
    "C74_refuted",
    "C74_partial"
   ],
   "note": "False: NameError instead (state unchanged), and negative offsets wrap around; which ranges are refused is proved. C74_update_partial is exact for all offsets and lengths."
  },
  {
   "property": "C75",
   "status": "partial",
   "theorems": [
    "C75_any_partial",
    "C75_full_refuted",
    "C75_partial",
    "C75_refuted",
    "C75_getInstance"
   ],
   "note": "In-bounds and zero lengths hold; out of bounds raises NameError and negative lengths are accepted (refuted). C75_any_partial is exact for all offsets and non-zero lengths."
  },
  {
   "property": "C76",
   "status": "partial",
   "theorems": [
    "C76_full_refuted",
    "C76_partial",
    "C76_refuted"
   ],
   "note": "Order and refusals hold for every history; the capacity is never enforced (refuted)."
  },
  {
   "property": "C77",
   "status": "partial",
   "theorems": [
    "C77_full_refuted",
    "C77_refuted"
   ],
   "note": "False for every action: transactions do nothing."
  },
  {
   "property": "C78",
   "status": "partial",
   "theorems": [
    "C78_full_refuted",
    "C78_makeTransientIntArray",
    "C78_partial",
    "C78_refuted",
    "C78_unknown_type"
   ],
   "note": "Holds for non-negative lengths; negative lengths give empty arrays or NameError (refuted)."
  },
  {
   "property": "C79",
   "status": "proved",
   "theorems": [
    "C79_complement",
    "C79_triple"
   ],
   "note": "Both directions for single DES, encryption for triple DES."
  },
  {
   "property": "C80",
   "status": "proved",
   "theorems": [
    "C80_weak",
    "C80_constructible"
   ],
   "note": "The keys are listed in S_DESX.v; the proof is symbolic in the message."
  },
  {
   "property": "C81",
   "status": "proved",
   "theorems": [
    "C81_bijection",
    "C81_triple"
   ],
   "note": "Both classes, both modes, any history."
  },
  {
   "property": "C82",
   "status": "proved",
   "theorems": [
    "C82_des",
    "C82_triple"
   ],
   "note": "Both classes, both modes, any history; stated as local_change in S_DESX.v."
  },
  {
   "property": "C83",
   "status": "proved",
   "theorems": [
    "C83_des",
    "C83_triple",
    "C83_decrypt",
    "C83_decrypt_triple"
   ],
   "note": "Any history of the first object; the second is any object with the stated IV."
  },
  {
   "property": "C84",
   "status": "proved",
   "theorems": [
    "C84_two_keys",
    "C84_collapse"
   ],
   "note": "Whole blocks, ECB or CBC with a given IV."
  },
  {
   "property": "C85",
   "status": "proved",
   "theorems": [
    "C85_settings",
    "C85_setters"
   ],
   "note": "All histories in which setKey gets 8-byte keys (other sizes are C86)."
  },
  {
   "property": "C86",
   "status": "partial",
   "theorems": [
    "C86_exact_partial",
    "C86_full_refuted"
   ],
   "note": "Violated: C86_full_refuted; C86_exact_partial says exactly what happens for every size."
  },
  {
   "property": "C87",
   "status": "partial",
   "theorems": [
    "C87_settings",
    "C87_no_iv",
    "C87_setters",
    "C87_rekey_partial",
    "C87_full_refuted"
   ],
   "note": "C87_settings, C87_no_iv and C87_setters hold for all histories; the claim about setKey (C87_full) is refuted for CBC without an IV and proved otherwise (C87_rekey_partial)."
  },
  {
   "property": "C88",
   "status": "partial",
   "theorems": [
    "C88_exact_partial",
    "C88_refuted",
    "C88_full_refuted"
   ],
   "note": "Violated for every key and input: C88_exact_partial gives the exact result."
  },
  {
   "property": "C89",
   "status": "partial",
   "theorems": [
    "C89_refuted",
    "C89_full_refuted"
   ],
   "note": "Violated for every correctly padded block."
  },
  {
   "property": "C90",
   "status": "partial",
   "theorems": [
    "C90_refuted",
    "C90_accepted",
    "C90_full_refuted"
   ],
   "note": "Violated for every setter history: init accepts the key (C90_accepted) and doFinal raises AttributeError."
  },
  {
   "property": "C91",
   "status": "proved",
   "theorems": [
    "C91_init",
    "C91_errors"
   ],
   "note": "All cipher states; pycrypto is arbitrary."
  },
  {
   "property": "C92",
   "status": "partial",
   "theorems": [
    "C92_supported_partial",
    "C92_two_arguments",
    "C92_refuted",
    "C92_full_refuted"
   ],
   "note": "Supported pairs hold; all other pairs raise the wrong exception (refuted)."
  },
  {
   "property": "C93",
   "status": "partial",
   "theorems": [
    "C93_refuted",
    "C93_full_refuted"
   ],
   "note": "Violated by every call."
  },
  {
   "property": "C94",
   "status": "partial",
   "theorems": [
    "C94_exact_partial",
    "C94_current_partial",
    "C94_full_refuted"
   ],
   "note": "Holds in histories without the 6-byte commands on which the constructor raises; C94_exact_partial describes every construction."
  },
  {
   "property": "C95",
   "status": "partial",
   "theorems": [
    "C95_channel_partial",
    "C95_none",
    "C95_full_refuted"
   ],
   "note": "Holds as long as no receive or store aims at the first cell of a buffer; calls on other objects are arbitrary otherwise."
  },
  {
   "property": "C96",
   "status": "proved",
   "theorems": [
    "C96_every",
    "C96_base",
    "C96_unselected",
    "C96_abstract"
   ],
   "note": "All short commands (C96_base) and, in terms of what the APDU object returns for them, all commands (C96_every); cells may be signed or unsigned bytes."
  },
  {
   "property": "C97",
   "status": "partial",
   "theorems": [
    "C97_one_partial",
    "C97_any_partial",
    "C97_partial",
    "C97_errors_refuted",
    "C97_full_refuted"
   ],
   "note": "In range it holds; the error cases raise NameError (refuted). C97_any_partial is exact for every offset."
  },
  {
   "property": "C98",
   "status": "partial",
   "theorems": [
    "C98_build_partial",
    "C98_read_partial",
    "C98_roundtrip_partial",
    "C98_find_partial",
    "C98_full_refuted"
   ],
   "note": "Any depth and number of children, tag numbers up to 30 and contents up to 127 octets; a longer child cannot be appended (C98_full_refuted)."
  },
  {
   "property": "C99",
   "status": "proved",
   "theorems": [
    "C99_copy_split",
    "C99_fill_split",
    "C99_compare_split"
   ],
   "note": "Also for out-of-range accesses and for copies within one array."
  },
  {
   "property": "C100",
   "status": "proved",
   "theorems": [
    "C100_copy_compare",
    "C100_save_restore",
    "C100_order",
    "C100_fill_compare"
   ],
   "note": "In-range arguments."
  },
  {
   "property": "C101",
   "status": "partial",
   "theorems": [
    "C101_hierarchy",
    "C101_throwIt_partial",
    "C101_reason",
    "C101_no_reason_refuted",
    "C101_full_refuted"
   ],
   "note": "Everything below CardRuntimeException holds; CardException and UserException have no throwIt (refuted). The hierarchy part holds for all classes."
  },
  {
   "property": "C102",
   "status": "partial",
   "theorems": [
    "C102_history",
    "C102_last_partial",
    "C102_new",
    "C102_kind_refuted",
    "C102_truncated_refuted",
    "C102_size_refuted",
    "C102_equal",
    "C102_full_refuted"
   ],
   "note": "C102_history: outcome of a call is independent of the history. The refuted theorems describe what failing calls leave behind."
  },
  {
   "property": "C103",
   "status": "partial",
   "theorems": [
    "C103_statics",
    "C103_size_refuted",
    "C103_truncated",
    "C103_prefix_free",
    "C103_unambiguous"
   ],
   "note": "Everything but the exception of the static size function."
  },
  {
   "property": "C104",
   "status": "proved",
   "theorems": [
    "C104_history",
    "C104_observe"
   ],
   "note": "Offsets are non-negative (a negative offset makes Python index from the end)."
  },
  {
   "property": "C105",
   "status": "proved",
   "theorems": [
    "C105_write_read",
    "C105_convert",
    "C105_there_and_back"
   ],
   "note": "Non-empty arrays; BCD bytes must have decimal nibbles."
  },
  {
   "property": "C106",
   "status": "proved",
   "theorems": [
    "C106_history",
    "C106_state"
   ],
   "note": "The known deviations of OwnerPIN (C13, C15) are part of the reference. String PINs only: with lists the cells wrap around (C14)."
  },
  {
   "property": "C107",
   "status": "proved",
   "theorems": [
    "C107_guesses",
    "C107_secrecy"
   ],
   "note": "String PINs. Checks longer than the maximal size raise IndexError and do not count."
  },
  {
   "property": "C108",
   "status": "partial",
   "theorems": [
    "C108_install",
    "C108_encrypt_partial",
    "C108_decrypt_refuted",
    "C108_errors",
    "C108_full_refuted"
   ],
   "note": "C108_encrypt_partial gives every answer to an encrypting command, C108_decrypt_refuted and C108_errors the others; false as claimed (C108_full_refuted)."
  },
  {
   "property": "C109",
   "status": "partial",
   "theorems": [
    "C109_des_call",
    "C109_des_history",
    "C109_new",
    "C109_tdes_history",
    "C109_mixed_refuted",
    "C109_full_refuted",
    "C109_stuck_refuted"
   ],
   "note": "C109_des_history and C109_tdes_history hold for histories in which setKey gets no non-ASCII str; C109_mixed_refuted says what such a setKey does to a triple_des object, C109_stuck_refuted that an object can be left with no first key. des objects refuse every non-ASCII str without effect."
  },
  {
   "property": "C110",
   "status": "partial",
   "theorems": [
    "C110_created_refuted",
    "C110_bytes_partial",
    "C110_full_refuted"
   ],
   "note": "Holds as long as no key is given as a str (C110_bytes_partial)."
  },
  {
   "property": "C111",
   "status": "partial",
   "theorems": [
    "C111_des_types",
    "C111_tdes_types",
    "C111_full_refuted",
    "C111_roundtrip_partial",
    "C111_roundtrip_refuted"
   ],
   "note": "C111_des_types and C111_tdes_types say which calls return bytes and which the str; false as claimed only for empty data."
  },
  {
   "property": "C112",
   "status": "partial",
   "theorems": [
    "C112_des_partial",
    "C112_clash_refuted",
    "C112_other_refuted",
    "C112_full_refuted",
    "C112_tdes_partial",
    "C112_tdes_clash_refuted"
   ],
   "note": "Encryption: PAD_NORMAL with at most one pad character, and PAD_PKCS5; decryption: all. The exceptions are characterised by C112_clash_refuted, C112_tdes_clash_refuted and C112_other_refuted."
  },
  {
   "property": "C113",
   "status": "partial",
   "theorems": [
    "C113_frame_partial",
    "C113_until_send_partial",
    "C113_refuted",
    "C113_full_refuted"
   ],
   "note": "C113_refuted gives the list after a send exactly; the partial theorems say which lists can change and when."
  },
  {
   "property": "C114",
   "status": "partial",
   "theorems": [
    "C114_alone_partial",
    "C114_separate_partial",
    "C114_refuted",
    "C114_full_refuted"
   ],
   "note": "Holds if no two APDUs are built from one list (C114_separate_partial), or for an APDU whose lists no other uses (C114_alone_partial); the program may store into its own lists."
  },
  {
   "property": "C115",
   "status": "partial",
   "theorems": [
    "C115_copies_partial",
    "C115_own_partial",
    "C115_view_partial",
    "C115_calls_partial",
    "C115_refuted",
    "C115_full_refuted"
   ],
   "note": "Holds for histories in which init is called on tag objects the program made itself (C115_own_partial)."
  },
  {
   "property": "C116",
   "status": "partial",
   "theorems": [
    "C116_refuted",
    "C116_full_refuted",
    "C116_frame_partial",
    "C116_same_objects_partial",
    "C116_through_partial",
    "C116_view_partial"
   ],
   "note": "The partial theorems: frame (only setters change a key), identity of given keys, agreement with the model in which pairs own their keys."
  },
  {
   "property": "C117",
   "status": "partial",
   "theorems": [
    "C117_refuted",
    "C117_full_refuted"
   ],
   "note": "False as claimed for every size and history (C117_refuted gives every result and the final state)."
  },
  {
   "property": "C118",
   "status": "partial",
   "theorems": [
    "C118_reached_partial",
    "C118_missing_refuted",
    "C118_full_refuted",
    "C118_static_on_object_refuted",
    "C118_static_both_ways_partial",
    "C118_override_partial"
   ],
   "note": "impl names the function of each of the 35 documented calls that work, C118_missing_refuted gives the exceptions of the 8 that do not. Only the selection of the function and the number of arguments are modelled here, what the functions do is in the other files."
  },
  {
   "property": "C119",
   "status": "proved",
   "theorems": [
    "C119_exchange"
   ],
   "note": "Proved in full; the reference includes what is wrong in the library (the -1 returned for a command with an Le byte only, sends without announced length and over it), which C26, C28 and C29 state as refutations."
  },
  {
   "property": "C120",
   "status": "proved",
   "theorems": [
    "C120_init_fixes_key",
    "C120_later_key_calls"
   ],
   "note": "Proved in full: C120_init_fixes_key is C120_full; C120_later_key_calls says it for one call."
  },
  {
   "property": "C121",
   "status": "partial",
   "theorems": [
    "C121_partial",
    "C121_secure_refuted",
    "C121_full_refuted"
   ],
   "note": "False: secure messaging is never reported and the channel of further interindustry classes is reduced modulo 4 (exact)."
  },
  {
   "property": "C122",
   "status": "proved",
   "theorems": [
    "C122_blocks",
    "C122_protocol"
   ],
   "note": "Proved: the bounds for all histories; getProtocol is a constant."
  },
  {
   "property": "C123",
   "status": "partial",
   "theorems": [
    "C123_step_partial",
    "C123_receive_partial",
    "C123_refuted",
    "C123_frame_partial",
    "C123_full_refuted"
   ],
   "note": "False: every call that would send raises TypeError (C123_refuted for all histories). Everything else is the same (C123_step_partial for one call from any state, C123_receive_partial), and the command is never overwritten (C123_frame_partial)."
  },
  {
   "property": "C124",
   "status": "partial",
   "theorems": [
    "C124_refuted",
    "C124_full_refuted",
    "C124_partial",
    "C124_init_partial"
   ],
   "note": "False: C124_refuted gives the results of the calls on a new object. C124_partial: over all histories without an init with a tag the object stays unusable; C124_init_partial: an init with a tag does not depend on the past."
  },
  {
   "property": "C125",
   "status": "partial",
   "theorems": [
    "C125_partial",
    "C125_full_refuted",
    "C125_distinct",
    "C125_choices",
    "C125_lengths",
    "C125_error_states"
   ],
   "note": "False for the reason codes of APDUException and PINException and for the protocol codes of APDU; exactly these differ among the 207 constants compared. C125_choices, C125_error_states and C125_lengths cover all constants of the library, compared or not. Not compared: TLVException, ExternalException, Memory, BERTag and the STATE_ERROR_ codes."
  },
  {
   "property": "C126",
   "status": "partial",
   "theorems": [
    "C126_refuted",
    "C126_full_refuted",
    "C126_partial"
   ],
   "note": "False for every one of the four classes; each constant is the class bits of another class, consistently in encoding and decoding."
  },
  {
   "property": "C127",
   "status": "partial",
   "theorems": [
    "C127_any_order_partial",
    "C127_same_partial",
    "C127_one_class_partial",
    "C127_installed_refuted",
    "C127_full_refuted"
   ],
   "note": "True from the checkout, for every sequence of imports; false as installed, where pythoncard.security can never be imported. The bodies of the modules are tables of their top-level statements (definitions, assignments, imports), written from the text of the files."
  },
  {
   "property": "C128",
   "status": "partial",
   "theorems": [
    "C128_exact_partial",
    "C128_refuted",
    "C128_full_refuted"
   ],
   "note": "False for exactly eighteen uses (NameError) and, without pycrypto, two more. That the names of instances and locals exist is not part of the claim; attributes are followed through modules only."
  },
  {
   "property": "C129",
   "status": "partial",
   "theorems": [
    "C129_exact_partial",
    "C129_full_refuted"
   ],
   "note": "False for exactly the thirty-three classes listed in S_Import.v. Only existence is claimed, not the methods."
  },
  {
   "property": "C130",
   "status": "partial",
   "theorems": [
    "C130_objects_partial",
    "C130_statics_partial",
    "C130_ctors_partial",
    "C130_refuted",
    "C130_full_refuted"
   ],
   "note": "False for exactly the entries of objects_broken and statics_broken (S_Classes.v); every other method and every constructor is reached with the right number of arguments. The table of the API was written from the documentation as remembered, without network. That a method then does what the API says is not part of this claim."
  },
  {
   "property": "C131",
   "status": "partial",
   "theorems": [
    "C131_class_attributes_partial",
    "C131_self_partial",
    "C131_full_refuted"
   ],
   "note": "False for exactly one attribute. Assigned means that some method of the class or a base class assigns it, not that this happened before; attributes of other objects than self, classes and modules are not followed."
  },
  {
   "property": "C132",
   "status": "partial",
   "theorems": [
    "C132_util_partial",
    "C132_aid_partial",
    "C132_aid_refuted",
    "C132_compare_refuted",
    "C132_pin_refuted",
    "C132_int_refuted",
    "C132_big_partial",
    "C132_apdu_partial",
    "C132_tag_partial",
    "C132_tlv_partial",
    "C132_tlv_refuted",
    "C132_des_partial",
    "C132_digest_partial",
    "C132_rsa_refuted",
    "C132_full_refuted"
   ],
   "note": "False where cells are compared or summed as they are: arrayCompare, AID equality, OwnerPIN.check, getInt, long-form TLV lengths, RSA numbers. Proved for util, AID construction, BigNumber, APDU, tags, short-form or length-given TLVs, DES and digests. Not covered: writing tags and TLVs, find and append, Signature, the RSA cipher."
  },
  {
   "property": "C133",
   "status": "proved",
   "theorems": [
    "C133_des",
    "C133_rsa",
    "C133_digest",
    "C133_append",
    "C133_inplace"
   ],
   "note": "Lists created by a call are at locations no array of the caller has (hypotheses of the theorems). Util.arrayCopy itself does not have the property (C05)."
  },
  {
   "property": "C134",
   "status": "partial",
   "theorems": [
    "C134_partial",
    "C134_refuted",
    "C134_full_refuted",
    "C134_defaults"
   ],
   "note": "False for every applet for which the system has stored nothing: AttributeError (C134_refuted). The system is test/testApplet.py: the library itself never sets the attribute."
  },
  {
   "property": "C135",
   "status": "partial",
   "theorems": [
    "C135_exact_partial",
    "C135_refuted",
    "C135_full_refuted"
   ],
   "note": "False of 46 of the 81 calls (C135_refuted says which). C135_exact_partial: each call ends with exactly the exceptions listed in S_Errors.v, for no input with another one. Not included: methods that cannot raise, exceptions raised within pycrypto, and walks of find that do not end (C46)."
  },
  {
   "property": "C136",
   "status": "partial",
   "theorems": [
    "C136_exact_partial",
    "C136_refuted",
    "C136_full_refuted"
   ],
   "note": "False of 27 of the 43 calls, each with a failing call that leaves its array or object changed (C136_refuted); C136_exact_partial: the other 16 never do, in any state. OwnerPIN.check is left out on purpose (C13). append of ConstructedBERTLV: objects whose tag is set when the value is, as the constructor and init leave them."
  },
  {
   "property": "C137",
   "status": "partial",
   "theorems": [
    "C137_exact_partial",
    "C137_refuted",
    "C137_full_refuted"
   ],
   "note": "C137_exact_partial: the calls that keep the property are exactly those of byte_safe (S_Bytes.v), for all calls or for successful ones. False of the static append, getAvailableMemory, generateData, generated RSA keys and RSA doFinal; of toBytes of BERTag and BERTLV when they fail. Tags have class 0..3 and a number of at least 0. Not included: doFinal of a signature (it is not implemented)."
  },
  {
   "property": "C138",
   "status": "partial",
   "theorems": [
    "C138_exact_partial",
    "C138_full_refuted",
    "C138_tlv_partial"
   ],
   "note": "C138_exact_partial: the property holds exactly of the calls of is_local (S_Local.v). False of four entries, all in bertlv.py; C138_tlv_partial: getInstance with a length keeps it when the header is inside. Ranges that reach outside the array or have a negative offset are not the subject (C04, C08). Not included: the static find functions."
  },
  {
   "property": "C139",
   "status": "partial",
   "theorems": [
    "C139_exact_partial",
    "C139_full_refuted"
   ],
   "note": "C139_exact_partial: the calls that return the number of the API are exactly those of the table defined (S_Return.v). A model of result type unit stands for a function without return statement. DES doFinal with PKCS5 padding is covered for encryption; the length after decryption of foreign data depends on the padding byte (C58_roundtrip, C62). hashlib is assumed to return digests of its stated length."
  },
  {
   "property": "C140",
   "status": "partial",
   "theorems": [
    "C140_exact_partial",
    "C140_full_refuted"
   ],
   "note": "C140_exact_partial: the calls whose results always fit their type are exactly those of the table typed (S_JavaType.v). Offsets are 0..32767: a negative offset makes Python count from the end (C08). hashlib is assumed to return digests of its stated length. Not included: numbers a client sets and reads back (Key.getSize, getReason)."
  },
  {
   "property": "C141",
   "status": "partial",
   "theorems": [
    "C141_exact_partial",
    "C141_secret",
    "C141_blocked",
    "C141_wrong_pin_refuted",
    "C141_too_long_refuted",
    "C141_unreset_refuted",
    "C141_full_refuted"
   ],
   "note": "Partial: C141_secret is unconditional; C141_exact_partial and C141_blocked need a PIN of the maximum size without a zero byte and VERIFYs of at most that many bytes, C141_exact_partial also an initial selection; the three refuted theorems show that each of these is needed (zero bytes: C14). The applet is a client written for this property (M_pincard.v); it is not in /repo."
  },
  {
   "property": "C142",
   "status": "partial",
   "theorems": [
    "C142_exact_partial",
    "C142_agrees_partial",
    "C142_roundtrip",
    "C142_padding_refuted",
    "C142_full_refuted"
   ],
   "note": "C142_exact_partial: equality with the reference card for all histories of well-formed short commands, with the padding cut as pyDes does; C142_agrees_partial: whenever the standard gives an answer, the card gives this one; C142_roundtrip needs no such proviso. The applet is a client written for this property (M_descard.v); it is not in /repo. Extended commands and update are not part of it."
  },
  {
   "property": "C143",
   "status": "partial",
   "theorems": [
    "C143_exact_partial",
    "C143_guarded",
    "C143_conserved",
    "C143_overdraft_refuted",
    "C143_capacity_refuted",
    "C143_bcd_refuted",
    "C143_full_refuted"
   ],
   "note": "C143_exact_partial: the purse that just calls add and subtract answers as an account without limits, for all histories of well-formed short commands; C143_guarded and C143_conserved: with compareTo as a guard it is the account of m bytes, and the balance is exactly what a terminal concludes from the answers. Only the check of BCD digits is then missing (C143_bcd_refuted). The applet is a client written for this property (M_purse.v); it is not in /repo. Extended commands are not part of it."
  },
  {
   "property": "C144",
   "status": "partial",
   "theorems": [
    "C144_exact_partial",
    "C144_fixed",
    "C144_sound",
    "C144_once",
    "C144_refused_refuted",
    "C144_full_refuted"
   ],
   "note": "C144_exact_partial: the exact behaviour for all histories and random sources; C144_sound and C144_once hold for the applet as it is and as corrected, C144_fixed shows that making the challenge signed is enough. os.urandom is an arbitrary sequence of bytes. The applet is a client written for this property (M_chalcard.v); it is not in /repo. Extended commands and selection are not part of it."
  },
  {
   "property": "C145",
   "status": "partial",
   "theorems": [
    "C145_exact_partial",
    "C145_message_partial",
    "C145_extended_refuted",
    "C145_phantom_refuted",
    "C145_full_refuted"
   ],
   "note": "C145_exact_partial: all histories of commands that the library decodes (short ones, Case 2E and 4E with Le = 65536 or Le mod 256 <> 0), every hash function with digests of 1 to 200 bytes; C145_message_partial: a message cut in any way. C145_extended_refuted and C145_phantom_refuted: the exact behaviour on the other commands. hashlib is an argument. The applet is a client written for this property (M_hashcard.v); it is not in /repo."
  },
  {
   "property": "C146",
   "status": "partial",
   "theorems": [
    "C146_exact_partial",
    "C146_whole",
    "C146_first_partial",
    "C146_long_refuted",
    "C146_malformed_refuted",
    "C146_full_refuted"
   ],
   "note": "C146_exact_partial: all histories of short commands whose PUT DATA has a length byte up to 127, right or wrong; C146_first_partial: the first object put is what every later GET DATA of its tag answers; C146_whole: the test for well-formed data is that of X.690; C146_long_refuted: long-form lengths of one octet are always refused. C146_malformed_refuted: malformed data that are taken. Other long forms are not described. The applet is a client written for this property (M_datacard.v); it is not in /repo."
  }
 ]
}