{"id": "C01", "title": "makeShort is the big-endian two's-complement short", "statement": "Util.makeShort(b1, b2) returns the signed 16-bit integer whose high byte is b1 and low byte is b2, whether the bytes are given as signed (-128..127) or unsigned (0..255) numbers; the result is always in -32768..32767 and congruent to 256*b1 + (b2 mod 256) modulo 65536.", "quantifier": "every pair of Python integers b1, b2", "why_tests_cant": "the existing test samples 30 random pairs; the claim is for all integers, including ones outside a byte", "anchors": ["pythoncard/framework/util.py:makeShort", "pythoncard/utils.py:signed,s2"]}
{"id": "C02", "title": "setShort/getShort round-trip and frame", "statement": "After Util.setShort(a, off, v) on an in-range offset, Util.getShort(a, off) returns the signed 16-bit value of v, both stored cells are signed bytes, and every other cell and the array length are unchanged; if off or off+1 is past the end, ArrayIndexOutOfBoundsException is raised.", "quantifier": "every array, every non-negative offset, every integer v", "why_tests_cant": "unbounded arrays, offsets and values", "anchors": ["pythoncard/framework/util.py:setShort,getShort"]}
{"id": "C03", "title": "arrayCopy between distinct arrays copies exactly the requested range", "statement": "For distinct arrays with both ranges in bounds, Util.arrayCopy makes dest[destOff..destOff+length) equal to src[srcOff..srcOff+length), changes no other cell of dest, no other array, and keeps dest's length.", "quantifier": "every heap of arrays, every in-bounds source and destination range", "why_tests_cant": "all array contents, sizes and ranges", "anchors": ["pythoncard/framework/util.py:arrayCopy"]}
{"id": "C04", "title": "Out-of-bounds accesses raise ArrayIndexOutOfBoundsException", "statement": "For non-negative offsets and lengths, Util.arrayCopy and Util.arrayFillNonAtomic raise ArrayIndexOutOfBoundsException exactly when some requested cell lies past the end of an array, and otherwise return normally; no raw Python IndexError ever escapes from arrayCopy, arrayCompare, arrayFillNonAtomic, getShort or setShort, whatever the integer arguments.", "quantifier": "every array pair, offset and length", "why_tests_cant": "an iff over all boundary combinations", "anchors": ["pythoncard/framework/util.py:arrayCopy,arrayCompare,arrayFillNonAtomic,getShort,setShort"]}
{"id": "C05", "title": "arrayCopy within one array behaves as if through a temporary", "statement": "When src and dest are the same array object, Util.arrayCopy leaves dest[destOff..) holding the values src[srcOff..) had before the call, even when the ranges overlap (Java Card Util.arrayCopy contract).", "quantifier": "every array and every pair of in-bounds, possibly overlapping ranges", "why_tests_cant": "depends on aliasing and on the relative position of the ranges", "anchors": ["pythoncard/framework/util.py:arrayCopy"]}
{"id": "C06", "title": "arrayCopy is atomic: on failure the destination is untouched", "statement": "If Util.arrayCopy raises, the destination array is exactly as it was before the call (the copy runs inside beginTransaction/abortTransaction).", "quantifier": "every failing call", "why_tests_cant": "failure can strike at any index of the loop", "anchors": ["pythoncard/framework/util.py:arrayCopy", "pythoncard/framework/jcsystem.py:beginTransaction,abortTransaction"]}
{"id": "C07", "title": "arrayCompare is lexicographic comparison", "statement": "For in-bounds ranges Util.arrayCompare returns 0 iff the ranges are equal element by element, -1/1 iff at the first difference the source element is smaller/greater; swapping the arguments negates the result.", "quantifier": "every pair of arrays and in-bounds ranges", "why_tests_cant": "all contents and lengths", "anchors": ["pythoncard/framework/util.py:arrayCompare"]}
{"id": "C08", "title": "Negative offsets are rejected", "statement": "A negative srcOff/destOff/bOff given to the Util array functions raises ArrayIndexOutOfBoundsException, as in Java, and changes nothing.", "quantifier": "every array and negative offset", "why_tests_cant": "Python's negative indexing makes the outcome depend on the array length", "anchors": ["pythoncard/framework/util.py"]}
{"id": "C09", "title": "arrayCopyNonAtomic behaves like arrayCopy, including its error", "statement": "Util.arrayCopyNonAtomic has the same effect as arrayCopy on in-bounds ranges and raises ArrayIndexOutOfBoundsException when a range is out of bounds.", "quantifier": "every array pair and range", "why_tests_cant": "all sizes and ranges, both exits", "anchors": ["pythoncard/framework/util.py:arrayCopyNonAtomic"]}
{"id": "C10", "title": "signed(value, depth) is two's complement", "statement": "utils.signed(v, d) is always congruent to v modulo 2^(8d), is the identity on the signed d-byte range, and is the two's-complement reading of v for every unsigned d-byte v; the property says exactly for which integers the result lies in the signed d-byte range. intx.sanatize turns every cell of an array into its signed value.", "quantifier": "every integer v and depth d >= 1", "why_tests_cant": "unbounded integers and depths", "anchors": ["pythoncard/utils.py:signed,s1,s2,u1", "pythoncardx/framework/util/intx.py:3-21"]}
{"id": "C11", "title": "PIN try counter always within 0..tryLimit", "statement": "After any history of calls on an OwnerPIN, whatever their arguments and whether they returned or raised, getTriesRemaining() is between 0 and tryLimit and the stored PIN has exactly maxPINSize cells.", "quantifier": "every tryLimit >= 0, every maxPINSize >= 0, every finite sequence of public calls with arbitrary arguments", "why_tests_cant": "all histories", "anchors": ["pythoncard/framework/ownerpin.py:OwnerPIN"]}
{"id": "C12", "title": "A blocked PIN stays blocked", "statement": "Once getTriesRemaining() is 0, every check returns False (never raises, never validates) and isValidated() is False after it, in any history without update, resetAndUnblock, setValidatedFlag, or a reset while validated.", "quantifier": "every blocked state and every finite sequence of checks and resets", "why_tests_cant": "unbounded number of attempts", "anchors": ["pythoncard/framework/ownerpin.py:check,reset"]}
{"id": "C13", "title": "Every failed check on an unblocked PIN costs exactly one try", "statement": "On an unblocked PIN, a check that does not return True (it returns False or raises) decrements getTriesRemaining() by exactly one and leaves isValidated() False, so at most tryLimit wrong guesses are possible.", "quantifier": "every PIN state and every candidate array, offset and length", "why_tests_cant": "the costs of all error paths over all arguments", "anchors": ["pythoncard/framework/ownerpin.py:check"]}
{"id": "C14", "title": "check accepts exactly the PIN that was set", "statement": "After update(pin, off, len) succeeds, a check of a candidate range on an unblocked OwnerPIN returns True if and only if the candidate bytes are the bytes that were set.", "quantifier": "every PIN, every candidate, every offset and length, byte arrays and strings", "why_tests_cant": "all PIN values and positions; a test only tries a few", "anchors": ["pythoncard/framework/ownerpin.py:update,check"]}
{"id": "C15", "title": "update does not leave the PIN validated", "statement": "After OwnerPIN.update the validated flag is reset (isValidated() is False), as the Java Card OwnerPIN contract says.", "quantifier": "every update", "why_tests_cant": "every state and argument", "anchors": ["pythoncard/framework/ownerpin.py:update"]}
{"id": "C16", "title": "The validated flag reflects the last deciding event", "statement": "isValidated() is True exactly when the most recent call that affects the flag was a check that returned True, an update that returned, or setValidatedFlag(True); in particular a fresh PIN is not validated and a check that returns False or raises always clears it.", "quantifier": "every finite history of calls", "why_tests_cant": "all histories", "anchors": ["pythoncard/framework/ownerpin.py"]}
{"id": "C17", "title": "reset and resetAndUnblock", "statement": "resetAndUnblock always restores the full try counter and clears the validated flag without changing the PIN; reset does the same if the PIN was validated and otherwise changes nothing.", "quantifier": "every state", "why_tests_cant": "all states", "anchors": ["pythoncard/framework/ownerpin.py:reset,resetAndUnblock"]}
{"id": "C18", "title": "AID construction, getBytes and equals agree", "statement": "AID(b, off, len) with off >= 0 succeeds iff 5 <= len <= 16 and the range is in bounds; then getBytes writes exactly those len bytes at any in-bounds destination offset, leaves other cells and the destination length unchanged and returns len, and equals(c, o, l) is True iff the range c[o..o+l) is exactly those bytes.", "quantifier": "every byte array, offset, length, and destination", "why_tests_cant": "all sizes and offsets", "anchors": ["pythoncard/framework/aid.py:AID.__init__,getBytes,equals"]}
{"id": "C19", "title": "AID equality is an equivalence; RIDEquals and partialEquals compare prefixes", "statement": "== on AIDs is reflexive, symmetric, transitive and holds iff getBytes yields the same bytes; RIDEquals holds iff the first five bytes agree and is implied by ==; partialEquals(b, o, n) holds iff the first n bytes agree and raises when n exceeds the AID.", "quantifier": "every pair/triple of AIDs, every n", "why_tests_cant": "relational laws over all AIDs", "anchors": ["pythoncard/framework/aid.py:__eq__,RIDEquals,partialEquals"]}
{"id": "C20", "title": "getPartialBytes copies the requested part of the AID", "statement": "For in-bounds arguments AID.getPartialBytes(aidOffset, dest, oOffset, oLength) copies aid[aidOffset..aidOffset+oLength) to dest[oOffset..) and returns oLength (0 meaning up to the end of the AID).", "quantifier": "every AID, destination and range", "why_tests_cant": "all ranges", "anchors": ["pythoncard/framework/aid.py:getPartialBytes"]}
{"id": "C21", "title": "An AID object always holds 5 to 16 bytes", "statement": "Every AID object that the constructor returns holds between 5 and 16 bytes, whatever the offset argument.", "quantifier": "every array, integer offset and length", "why_tests_cant": "includes negative offsets", "anchors": ["pythoncard/framework/aid.py:AID.__init__"]}
{"id": "C22", "title": "A new APDU exposes the header and starts in the initial state", "statement": "APDU(bytes) on fewer than 4 bytes raises APDUException.BAD_LENGTH; whenever it returns, getBuffer() has 257 cells of which the first four are CLA INS P1 P2 and the fifth is P3 when present, getCurrentState() is STATE_INITIAL, and no command data byte has been copied yet.", "quantifier": "every byte array", "why_tests_cant": "all lengths and contents", "anchors": ["pythoncard/framework/apdu.py:APDU.__init__"]}
{"id": "C23", "title": "Short APDUs are decoded per ISO 7816-4", "statement": "For every well-formed short command (cases 1, 2S, 3S, 4S), getIncomingLength() is the number of data bytes, the expected length used by setOutgoing is Le (0 meaning 256; 0 when absent), getOffsetCdata() is 5, and the command is not treated as malformed.", "quantifier": "every header, every data field of 1..255 bytes, every Le 1..256, bytes signed or unsigned", "why_tests_cant": "all contents and lengths", "anchors": ["pythoncard/framework/apdu.py:APDU.__init__,__getInLengths,__getOutLengths"]}
{"id": "C24", "title": "Extended APDUs are decoded per ISO 7816-4", "statement": "For every well-formed extended command (cases 2E, 3E, 4E), getIncomingLength() is the number of data bytes, the expected length is Le (0 meaning 65536), getOffsetCdata() is 7, and the command is not treated as malformed.", "quantifier": "every header, every data field of 1..65535 bytes, every Le 1..65536", "why_tests_cant": "65535 data lengths times 65536 expected lengths", "anchors": ["pythoncard/framework/apdu.py:APDU.__init__,__getInLengths,__getOutLengths"]}
{"id": "C25", "title": "The receive loop delivers the whole command data in order", "statement": "setIncomingAndReceive followed by receiveBytes(off) until it returns 0 yields chunks of at most 128 bytes whose concatenation is exactly the command data, ending in STATE_FULL_INCOMING.", "quantifier": "every well-formed command with data that the library accepts, any receive offset whose blocks fit in the buffer", "why_tests_cant": "unbounded number of chunks", "anchors": ["pythoncard/framework/apdu.py:setIncomingAndReceive,receiveBytes"]}
{"id": "C26", "title": "Receive calls report a non-negative byte count", "statement": "setIncomingAndReceive and receiveBytes return the number of bytes copied, in 0..128.", "quantifier": "every APDU the constructor accepts", "why_tests_cant": "all lengths", "anchors": ["pythoncard/framework/apdu.py:setIncomingAndReceive,receiveBytes"]}
{"id": "C27", "title": "The response is the concatenation of what was sent", "statement": "After setOutgoing, setOutgoingLength(n) and any sequence of sendBytes/sendBytesLong calls on in-bounds ranges that return, the first k bytes of the response area are exactly the concatenation of the sent ranges (k = total sent), and the state is STATE_FULL_OUTGOING iff k >= n.", "quantifier": "every sequence of sends", "why_tests_cant": "unbounded sequences", "anchors": ["pythoncard/framework/apdu.py:setOutgoing,setOutgoingLength,sendBytes,sendBytesLong,setOutgoingAndSend"]}
{"id": "C28", "title": "Calls out of order raise ILLEGAL_USE and change nothing", "statement": "Receiving after setOutgoing, a second setIncomingAndReceive or setOutgoing, a second setOutgoingLength, and sending before setOutgoingLength each raise APDUException.ILLEGAL_USE and leave the APDU unchanged.", "quantifier": "every state reachable by any history of calls", "why_tests_cant": "all interleavings of the nine calls", "anchors": ["pythoncard/framework/apdu.py"]}
{"id": "C29", "title": "No more bytes can be sent than announced", "statement": "The total number of bytes sent never exceeds the length given to setOutgoingLength, and that length never exceeds Le.", "quantifier": "every history of calls", "why_tests_cant": "all histories", "anchors": ["pythoncard/framework/apdu.py:setOutgoingLength,sendBytes,sendBytesLong"]}
{"id": "C30", "title": "CLA queries are stable while a command is processed", "statement": "isCommandChainingCLA and isISOInterindustryCLA depend only on the CLA byte of the received command, whatever calls are made in between.", "quantifier": "every history of calls", "why_tests_cant": "all histories", "anchors": ["pythoncard/framework/apdu.py:isCommandChainingCLA,isISOInterindustryCLA"]}
{"id": "C31", "title": "Malformed commands are refused with SW_WRONG_LENGTH", "statement": "A command of at least 4 bytes whose length field disagrees with its size is accepted by the constructor but setIncomingAndReceive raises ISOException(SW_WRONG_LENGTH) without copying data.", "quantifier": "every byte array that is no well-formed APDU", "why_tests_cant": "all malformed arrays", "anchors": ["pythoncard/framework/apdu.py:APDU.__init__,setIncomingAndReceive"]}
{"id": "C32", "title": "BigNumber init/toBytes round-trip", "statement": "For any byte string of length n (valid BCD for FORMAT_BCD), init then toBytes with the same format and numBytes >= n writes the same bytes, left padded with zeros, at the given offset, changing nothing else.", "quantifier": "every byte string, offset, numBytes and output array", "why_tests_cant": "numbers of any size", "anchors": ["pythoncardx/framework/math.py:BigNumber.init,toBytes"]}
{"id": "C33", "title": "BigNumber arithmetic is integer arithmetic", "statement": "init denotes the unsigned value of the bytes (base 256 or base 100); add, subtract, multiply and compareTo act as integer +, -, * and comparison on these values; toBytes writes the base-256/base-100 digits of a non-negative value exactly when it fits in numBytes and otherwise raises ArithmeticException leaving the output untouched.", "quantifier": "every pair of byte strings, both formats, every sequence of operations", "why_tests_cant": "all sizes and operation sequences", "anchors": ["pythoncardx/framework/math.py:BigNumber"]}
{"id": "C34", "title": "subtract never yields a negative number", "statement": "BigNumber is unsigned: subtract raises ArithmeticException when the operand exceeds the number.", "quantifier": "every number and operand", "why_tests_cant": "all pairs", "anchors": ["pythoncardx/framework/math.py:subtract"]}
{"id": "C35", "title": "Invalid BCD is rejected", "statement": "init with FORMAT_BCD raises ArithmeticException when some nibble exceeds 9.", "quantifier": "every byte string", "why_tests_cant": "all byte strings", "anchors": ["pythoncardx/framework/math.py:init,from_bcd"]}
{"id": "C36", "title": "The maxBytes capacity is enforced", "statement": "init, add and multiply raise ArithmeticException when the value does not fit in the maxBytes given to the constructor.", "quantifier": "every capacity and operand", "why_tests_cant": "all sizes", "anchors": ["pythoncardx/framework/math.py:BigNumber.__init__"]}
{"id": "C37", "title": "A failing BigNumber operation leaves the number unchanged", "statement": "If init, add, subtract, multiply or toBytes raises, the value of the number is unchanged.", "quantifier": "every failing call", "why_tests_cant": "every failure position", "anchors": ["pythoncardx/framework/math.py"]}
{"id": "C38", "title": "JCint setInt/getInt round-trip", "statement": "setInt(a, off, hi, lo) stores the four signed bytes of the 32-bit integer hi*65536+(lo mod 65536) big-endian at off..off+3, returns off+4 and changes nothing else; getInt(a, off) then returns that integer; makeInt agrees.", "quantifier": "every array, offset and pair of shorts", "why_tests_cant": "2^32 values times all arrays", "anchors": ["pythoncardx/framework/util/intx.py:JCint"]}
{"id": "C39", "title": "BER tag encode/decode round-trip", "statement": "For every class 0..3, constructed bit and tag number >= 0, BERTag.toBytes followed by BERTag.getInstance at the same offset gives an equal tag, the encoding is the minimal BER identifier encoding and toBytes returns its length.", "quantifier": "every class, tag number of any size, offset, output array with room", "why_tests_cant": "unbounded tag numbers", "anchors": ["pythoncardx/framework/tlv/bertag.py:BERTag"]}
{"id": "C40", "title": "BERTag.size is the encoded size", "statement": "size() of a tag equals the number of bytes its encoding occupies, for tags parsed from bytes and for tags built with init(class, number).", "quantifier": "every tag", "why_tests_cant": "unbounded tag numbers", "anchors": ["pythoncardx/framework/tlv/bertag.py:_sizeBound,_sizeStatic,init"]}
{"id": "C41", "title": "Encoding a tag touches only its own bytes", "statement": "BERTag.toBytes changes no cell of the output array outside the bytes of the tag.", "quantifier": "every tag, output array and offset", "why_tests_cant": "all arrays", "anchors": ["pythoncardx/framework/tlv/bertag.py:_toBytesBound,sanitycheck"]}
{"id": "C42", "title": "BER-TLV parsing", "statement": "For every well-formed BER-TLV (any tag, definite length in short or long form), BERTLV.getInstance returns an object whose tag, length and value are those encoded, and size() and BERTLV.getLength give the total size.", "quantifier": "every tag, every value, every offset, any surrounding bytes", "why_tests_cant": "all lengths", "anchors": ["pythoncardx/framework/tlv/bertlv.py:BERTLV.getInstance,_getLength,size"]}
{"id": "C43", "title": "BER-TLV serialisation inverts parsing", "statement": "toBytes of a parsed TLV writes back exactly the bytes it was parsed from and returns their number.", "quantifier": "every well-formed TLV", "why_tests_cant": "all lengths", "anchors": ["pythoncardx/framework/tlv/bertlv.py:_toBytesBound"]}
{"id": "C44", "title": "find returns the first child with the tag", "statement": "On a constructed TLV holding a list of child TLVs, find(tag) returns the first child whose tag equals it, None if there is none, and find(None) returns the first child.", "quantifier": "every list of well-formed children, every tag", "why_tests_cant": "unbounded lists", "anchors": ["pythoncardx/framework/tlv/bertlv.py:_find,_findBound"]}
{"id": "C45", "title": "findNext resumes after the given occurrence", "statement": "findNext(tag, aTLV, n) returns the first child with the tag after the n-th child equal to aTLV, None if there is no such child.", "quantifier": "every list of children, aTLV and n >= 1", "why_tests_cant": "unbounded lists", "anchors": ["pythoncardx/framework/tlv/bertlv.py:_findNextBound"]}
{"id": "C46", "title": "find terminates on every value", "statement": "find always terminates (returning or raising), whatever bytes the constructed TLV holds.", "quantifier": "every byte array", "why_tests_cant": "termination on all, including hostile, inputs", "anchors": ["pythoncardx/framework/tlv/bertlv.py:_find"]}
{"id": "C47", "title": "append adds one child at the end", "statement": "append(child) makes the constructed TLV's value the old value followed by the child's encoding, updates length and size accordingly, and the child is then found last.", "quantifier": "every constructed TLV and child", "why_tests_cant": "unbounded", "anchors": ["pythoncardx/framework/tlv/bertlv.py:_appendBound,_appendStatic"]}
{"id": "C48", "title": "init from bytes initialises the object", "statement": "BERTLV.init(bArray, off, len) on a TLV object makes it represent the TLV found there (getTag, getLength, value).", "quantifier": "every well-formed TLV", "why_tests_cant": "all inputs", "anchors": ["pythoncardx/framework/tlv/bertlv.py:BERTLV.init"]}
{"id": "C49", "title": "The static findNext works on arrays", "statement": "ConstructedBERTLV.findNext(array, off, start, tagArray, tagOff) returns the offset of the next child after start with that tag or -1.", "quantifier": "every well-formed array", "why_tests_cant": "all inputs", "anchors": ["pythoncardx/framework/tlv/bertlv.py:_findNextStatic"]}
{"id": "C50", "title": "Tag kind mismatches are rejected", "statement": "PrimitiveBERTag.init on bytes raises MALFORMED_TAG iff the constructed bit is set, ConstructedBERTag.init iff it is clear; BERTag.getInstance never raises MALFORMED_TAG, returns the kind encoded in the byte, and never lets an IndexError escape.", "quantifier": "every array and offset", "why_tests_cant": "all inputs", "anchors": ["pythoncardx/framework/tlv/bertag.py"]}
{"id": "C51", "title": "replaceValue and getValue", "statement": "After replaceValue(v, off, n) on in-bounds ranges, getValue copies exactly v[off..off+n) and returns n; size reflects n; if replaceValue raises, the TLV is unchanged.", "quantifier": "every TLV and range", "why_tests_cant": "all sizes and failures", "anchors": ["pythoncardx/framework/tlv/bertlv.py:replaceValue,getValue"]}
{"id": "C52", "title": "DES decryption inverts encryption", "statement": "For every 8-byte key, decrypting an encrypted 8-byte block returns the block, and encrypting a decrypted one does too.", "quantifier": "all 2^64 keys times 2^64 blocks", "why_tests_cant": "cannot be enumerated", "anchors": ["pyDes/pyDes.py:des"]}
{"id": "C53", "title": "pyDes computes the DES of FIPS 46-3", "statement": "For every 8-byte key and 8-byte block, pyDes.des in ECB mode returns the ciphertext defined by the FIPS 46-3 standard (tables and round structure written down independently).", "quantifier": "all keys and blocks", "why_tests_cant": "cannot be enumerated", "anchors": ["pyDes/pyDes.py:des"]}
{"id": "C54", "title": "DES key parity bits are ignored", "statement": "Two 8-byte keys that differ only in the least significant bit of each byte encrypt and decrypt identically.", "quantifier": "all key pairs, all blocks", "why_tests_cant": "cannot be enumerated", "anchors": ["pyDes/pyDes.py:__create_sub_keys"]}
{"id": "C55", "title": "DES messages round-trip in ECB and CBC, with and without PKCS5", "statement": "decrypt(encrypt(m)) = m for every message (of a multiple of 8 bytes without padding), every key and IV; encryption yields a multiple of 8 bytes, strictly longer than m with PKCS5 and of equal length without padding.", "quantifier": "every key, IV and message of any length", "why_tests_cant": "unbounded messages", "anchors": ["pyDes/pyDes.py:des.encrypt,des.decrypt,_padData,_unpadData"]}
{"id": "C56", "title": "Triple DES round-trips and is EDE", "statement": "For 16- and 24-byte keys triple_des encrypts each block as E(k3, D(k2, E(k1, .))) (k3 = k1 for 16 bytes), in ECB and CBC; decrypt inverts encrypt; with k1 = k2 = k3 it equals single DES.", "quantifier": "every key, IV and message", "why_tests_cant": "unbounded", "anchors": ["pyDes/pyDes.py:triple_des"]}
{"id": "C57", "title": "ECB is blockwise and CBC chains", "statement": "ECB ciphertext is the concatenation of the block encryptions; CBC ciphertext block i is the encryption of plaintext block i XOR ciphertext block i-1 (the IV for i=0).", "quantifier": "messages of any length", "why_tests_cant": "unbounded", "anchors": ["pyDes/pyDes.py:crypt"]}
{"id": "C58", "title": "Cipher.doFinal round-trips through the Java Card API", "statement": "For each DES algorithm constant (ECB/CBC, NOPAD/PKCS5), key size (64, 128, 192) and byte arrays of signed or unsigned bytes, doFinal in encrypt mode then doFinal in decrypt mode restores the message (as signed bytes), returns its length and changes only the output range; input and output may be the same array.", "quantifier": "every key, message, offset and output array", "why_tests_cant": "unbounded", "anchors": ["pythoncardx/crypto/cipher.py:_pyDesDESCipher"]}
{"id": "C59", "title": "Cipher objects are reusable and history independent", "statement": "doFinal's result depends only on the key, mode, IV and input of the last successful init, not on earlier doFinal calls.", "quantifier": "every history of doFinal calls", "why_tests_cant": "all histories", "anchors": ["pythoncardx/crypto/cipher.py", "pyDes/pyDes.py:triple_des.encrypt"]}
{"id": "C60", "title": "Cipher.update processes data", "statement": "Feeding a message through update and doFinal in pieces gives the same result as one doFinal on the whole message.", "quantifier": "every split of every message", "why_tests_cant": "unbounded", "anchors": ["pythoncardx/crypto/cipher.py:Cipher.update"]}
{"id": "C61", "title": "A failing Cipher.init leaves the cipher as it was", "statement": "If Cipher.init raises, later doFinal calls behave as before the failing init.", "quantifier": "every cipher state and arguments", "why_tests_cant": "all states", "anchors": ["pythoncardx/crypto/cipher.py:Cipher.init,_pyDesDESCipher.init"]}
{"id": "C62", "title": "Unaligned NOPAD input is refused with a CryptoException", "statement": "doFinal with a NOPAD algorithm on input whose length is no multiple of 8 raises CryptoException(ILLEGAL_USE) and leaves the output untouched.", "quantifier": "every input length", "why_tests_cant": "all lengths", "anchors": ["pythoncardx/crypto/cipher.py", "pyDes/pyDes.py:_padData"]}
{"id": "C63", "title": "Invalid PKCS5 padding is detected", "statement": "Decrypting with PKCS5 raises when the decrypted text does not end in valid padding, rather than returning data.", "quantifier": "every ciphertext", "why_tests_cant": "unbounded", "anchors": ["pyDes/pyDes.py:_unpadData"]}
{"id": "C64", "title": "Pad-character mode round-trips", "statement": "In PAD_NORMAL mode with a pad byte, decrypt(encrypt(m, pad), pad) = m.", "quantifier": "every message and pad byte", "why_tests_cant": "unbounded", "anchors": ["pyDes/pyDes.py:_padData,_unpadData"]}
{"id": "C65", "title": "DES keys round-trip and can be cleared", "statement": "DESKey.setKey then getKey returns the size/8 key bytes (as signed bytes), touching nothing else; after clearKey, isInitialized() is False.", "quantifier": "every key size and key array", "why_tests_cant": "all keys", "anchors": ["pythoncard/security/secretkey.py", "pythoncard/security/key.py"]}
{"id": "C66", "title": "RSA keys become initialised exactly when both parts are set", "statement": "isInitialized() is True iff both setExponent and setModulus have succeeded; getExponent/getModulus then return exactly the bytes last set and raise UNINITIALIZED_KEY otherwise.", "quantifier": "every sequence of setter calls", "why_tests_cant": "all histories", "anchors": ["pythoncard/security/publickey.py", "pythoncard/security/privatekey.py"]}
{"id": "C67", "title": "A cipher uses the key components last set", "statement": "After changing the modulus or exponent of an initialised RSA public key, encryption uses the new components.", "quantifier": "every sequence of setter calls", "why_tests_cant": "all histories", "anchors": ["pythoncard/security/publickey.py:standardSetter"]}
{"id": "C68", "title": "The private key of a generated pair exposes the private exponent and the modulus", "statement": "After genKeyPair, getPrivate().getExponent gives d and getModulus gives n.", "quantifier": "every generated key", "why_tests_cant": "all keys", "anchors": ["pythoncard/security/privatekey.py:setTheKey"]}
{"id": "C69", "title": "PKCS#1 v1.5 unpadding inverts padding", "statement": "For every key size and message of at most size/8-11 bytes, and every random source, the padded block has size/8 bytes, starts with 0,2, has at least 8 non-zero filler bytes and unpadding returns the message; longer messages raise ILLEGAL_VALUE.", "quantifier": "every message, key size and random stream", "why_tests_cant": "unbounded and probabilistic", "anchors": ["pythoncardx/crypto/cipher.py:EME_PKCS1_v1_5_enc,EME_PKCS1_v1_5_dec"]}
{"id": "C70", "title": "Number/array conversion of key material is lossless", "statement": "_arrayTolong(_longToArray(n)) = n for every n >= 0, and getModulus/getExponent of a generated key return the little-endian bytes of the numbers.", "quantifier": "every non-negative integer", "why_tests_cant": "unbounded", "anchors": ["pythoncard/security/key.py:_longToArray,_arrayTolong"]}
{"id": "C71", "title": "KeyBuilder returns a key of the requested type and size or raises", "statement": "buildKey(type, length, _) returns an uninitialised key whose getType and getSize are the arguments, or raises CryptoException(NO_SUCH_ALGORITHM) for an unsupported type.", "quantifier": "every type and length", "why_tests_cant": "all integers", "anchors": ["pythoncard/security/keybuilder.py"]}
{"id": "C72", "title": "KeyPair generation", "statement": "A KeyPair with initialised keys refuses genKeyPair; a fresh RSA pair generates matching, initialised keys; unsupported algorithms raise NO_SUCH_ALGORITHM.", "quantifier": "every algorithm, length and key pair", "why_tests_cant": "all arguments", "anchors": ["pythoncard/security/keypair.py"]}
{"id": "C73", "title": "MessageDigest digests the concatenation of its updates", "statement": "After any sequence of updates, doFinal writes the digest (signed bytes) of the concatenation of everything fed since the last reset or doFinal, returns its length and leaves the object reset, also when the output is too small.", "quantifier": "every history of updates, doFinals and resets", "why_tests_cant": "all histories", "anchors": ["pythoncard/security/messagedigest.py"]}
{"id": "C74", "title": "MessageDigest range errors", "statement": "update or doFinal on an out-of-bounds range raises ArrayIndexOutOfBoundsException.", "quantifier": "every range", "why_tests_cant": "all ranges", "anchors": ["pythoncard/security/messagedigest.py"]}
{"id": "C75", "title": "RandomData fills exactly the requested range", "statement": "generateData(buf, off, n) with n > 0 and in-bounds range replaces exactly buf[off..off+n) by bytes; n = 0 raises ILLEGAL_VALUE; an out-of-bounds range raises ArrayIndexOutOfBoundsException.", "quantifier": "every buffer, range and random source", "why_tests_cant": "probabilistic", "anchors": ["pythoncard/security/random.py"]}
{"id": "C76", "title": "Dispatcher keeps services per phase in order and enforces its capacity", "statement": "addService appends to the phase's list, rejects None and unknown phases with ILLEGAL_PARAM leaving the table unchanged, and raises DISPATCH_TABLE_FULL beyond maxServices.", "quantifier": "every history of addService", "why_tests_cant": "all histories", "anchors": ["pythoncard/framework/service/dispatcher.py"]}
{"id": "C77", "title": "Transactions roll back", "statement": "Changes made between beginTransaction and abortTransaction are undone; nested begins and unmatched commits/aborts raise TransactionException.", "quantifier": "every history", "why_tests_cant": "all histories", "anchors": ["pythoncard/framework/jcsystem.py"]}
{"id": "C78", "title": "Array factories", "statement": "makeTransient*Array and makeGlobalArray return a fresh array of exactly the requested length filled with the type's default; a negative length raises.", "quantifier": "every length and type", "why_tests_cant": "all lengths", "anchors": ["pythoncard/framework/jcsystem.py"]}
{"id": "C79", "title": "DES complementation", "statement": "Inverting every bit of the key and of an 8-byte block inverts every bit of the block that pyDes.des.encrypt and decrypt return (ECB, no padding); the same holds for triple_des.encrypt with 16- and 24-byte keys.", "quantifier": "every key, block and object history", "why_tests_cant": "2^120 key/block pairs", "anchors": ["pyDes/pyDes.py:des.encrypt,des.decrypt,triple_des.encrypt"]}
{"id": "C80", "title": "Weak and semi-weak DES keys", "statement": "Encrypting twice with one of the four weak keys of FIPS 74 returns the message; encrypting with one key of a semi-weak pair and then with the other returns the message (ECB, whole blocks).", "quantifier": "every message of whole blocks, the 4 weak keys and 6 semi-weak pairs", "why_tests_cant": "all messages", "anchors": ["pyDes/pyDes.py:des.encrypt"]}
{"id": "C81", "title": "Encryption is a bijection on whole blocks", "statement": "For a des or triple_des object in ECB or CBC mode without padding, every byte string of whole blocks is the ciphertext of exactly one byte string of whole blocks, of the same length.", "quantifier": "every key, IV, object history and string", "why_tests_cant": "injectivity and surjectivity cannot be sampled", "anchors": ["pyDes/pyDes.py:des.encrypt,triple_des.encrypt"]}
{"id": "C82", "title": "A changed ciphertext block has a local effect", "statement": "Replacing one ciphertext block by a different one changes the corresponding plaintext block; in ECB mode no other plaintext block changes, in CBC mode the next block is xored with the difference of the ciphertext blocks and no other block changes.", "quantifier": "every key, IV, message and position", "why_tests_cant": "all positions and values", "anchors": ["pyDes/pyDes.py:des.decrypt,triple_des.decrypt"]}
{"id": "C83", "title": "Messages can be encrypted in pieces", "statement": "For des and triple_des, the ciphertext of a message of whole blocks starts with the ciphertext of any prefix of whole blocks; the rest is the ciphertext of the rest with the same object (ECB) or with an object whose IV is the last block of the first part (CBC), and in the same way for decryption, where the IV of the second object is the last ciphertext block of the first part.", "quantifier": "every key, IV, message and cut", "why_tests_cant": "all messages and cuts", "anchors": ["pyDes/pyDes.py:des.encrypt"]}
{"id": "C84", "title": "Keying options of triple DES", "statement": "A 16-byte key k1 k2 encrypts like the 24-byte key k1 k2 k1; with k1 = k2 triple_des is des with k3, with k2 = k3 it is des with k1.", "quantifier": "every key, IV and message of whole blocks", "why_tests_cant": "all keys and messages", "anchors": ["pyDes/pyDes.py:triple_des.setKey,encrypt"]}
{"id": "C85", "title": "The setters of a des object determine its behaviour", "statement": "After any sequence of setKey (8-byte keys), setMode, setIV, setPadding, setPadMode, encrypt and decrypt calls, successful or not, the getters return the values last set, and encrypt and decrypt return or raise exactly what an object created with those values would; setIV raises ValueError, changing nothing, exactly when the IV is not 8 bytes long.", "quantifier": "every sequence of calls with every argument", "why_tests_cant": "all histories of an object", "anchors": ["pyDes/pyDes.py:_baseDes.setMode,setIV,setPadding,setPadMode", "pyDes/pyDes.py:des.setKey"]}
{"id": "C86", "title": "des.setKey refuses keys that are not 8 bytes long", "statement": "des.setKey with a key that is not 8 bytes long raises ValueError and leaves the key of the object as it was (violated: a shorter key raises IndexError after getKey() changed, the object still using the old subkeys; a longer one is accepted and its first 8 bytes used).", "quantifier": "every object and every key size", "why_tests_cant": "all sizes and states", "anchors": ["pyDes/pyDes.py:des.setKey,__create_sub_keys"]}
{"id": "C87", "title": "The setters of a triple_des object determine its behaviour", "statement": "After any sequence of setter, encrypt and decrypt calls with any arguments, the getters of a triple_des object return its settings and its encrypt and decrypt are those of an object created with these settings; setKey gives the object created with the new key (violated in CBC mode when no IV was given: the first eight bytes of the old key remain the IV).  In CBC mode without an IV encrypt and decrypt raise ValueError.", "quantifier": "every sequence of calls with every argument", "why_tests_cant": "all histories of an object", "anchors": ["pyDes/pyDes.py:triple_des.setKey,setMode,setIV,setPadding,setPadMode"]}
{"id": "C88", "title": "Raw RSA returns the number as size/8 bytes", "statement": "Cipher.doFinal of an RSA cipher without padding writes to the output the size/8 bytes of the number pycrypto computes from the input bytes, and returns size/8 (violated: the array holds the shortest byte array of that number divided by 16, so the last four bits are lost and the length varies).", "quantifier": "every key, mode, input, output array and offset, and every behaviour of pycrypto", "why_tests_cant": "all numbers and keys", "anchors": ["pythoncardx/crypto/cipher.py:_PyCryptoRSACipher.doFinal", "pythoncard/security/key.py:_longToArray"]}
{"id": "C89", "title": "RSA decryption removes PKCS #1 padding", "statement": "Decrypting with ALG_RSA_PKCS1 a ciphertext whose RSA decryption is a correctly padded block returns the message (violated: for every such ciphertext doFinal raises ILLEGAL_VALUE).", "quantifier": "every key, ciphertext, block and message", "why_tests_cant": "all ciphertexts", "anchors": ["pythoncardx/crypto/cipher.py:_PyCryptoRSACipher.doFinal,EME_PKCS1_v1_5_dec"]}
{"id": "C90", "title": "A private key whose components were set can be used", "statement": "After setExponent and setModulus on a private key, Cipher.init accepts it and doFinal on size/8 bytes succeeds whenever pycrypto does (violated: init accepts it and every doFinal raises AttributeError).", "quantifier": "every sequence of setter calls, size, mode and input", "why_tests_cant": "all histories of the key", "anchors": ["pythoncardx/crypto/cipher.py:_PyCryptoRSACipher.doFinal", "pythoncard/security/privatekey.py:PyCryptoRSAPrivateKey"]}
{"id": "C91", "title": "Errors of the RSA cipher", "statement": "init succeeds exactly for initialised RSA keys and the modes 1 and 2, a failing init does not make the cipher usable; doFinal raises INVALID_INIT before init, ArrayIndexOutOfBoundsException for an input range outside the array, ILLEGAL_VALUE for an input of the wrong size or a message longer than size/8-11 bytes, and then writes nothing.", "quantifier": "every cipher state, key, mode and argument", "why_tests_cant": "all states and ranges", "anchors": ["pythoncardx/crypto/cipher.py:_PyCryptoRSACipher.init,doFinal", "pythoncardx/crypto/cipher.py:Cipher.init"]}
{"id": "C92", "title": "Cipher.getInstance by cipher and padding", "statement": "Cipher.getInstance with a cipher and a padding constant gives the cipher of the corresponding algorithm constant; unsupported combinations raise NO_SUCH_ALGORITHM (violated: UnboundLocalError or TypeError).", "quantifier": "every pair of integers", "why_tests_cant": "all pairs", "anchors": ["pythoncardx/crypto/cipher.py:Cipher.getInstance"]}
{"id": "C93", "title": "Signature.getInstance", "statement": "Signature.getInstance(ALG_RSA_SHA_PKCS1, external) returns a signature object and other algorithms raise NO_SUCH_ALGORITHM (violated: every call raises TypeError).", "quantifier": "every argument list", "why_tests_cant": "all calls", "anchors": ["pythoncard/security/signature.py:Signature.getInstance"]}
{"id": "C94", "title": "getCurrentAPDU is the APDU last created", "statement": "At any point of a history of APDU constructions and method calls, APDU.getCurrentAPDU() is the APDU whose construction last succeeded, and None before that (violated: a 6-byte command with Lc 0 makes the constructor raise IndexError after the half-made object became the current APDU).", "quantifier": "every sequence of constructions and calls with every argument", "why_tests_cant": "all histories of the module", "anchors": ["pythoncard/framework/apdu.py:APDU.__init__,getCurrentAPDU,getCurrentAPDUBuffer"]}
{"id": "C95", "title": "getCLAChannel", "statement": "APDU.getCLAChannel() is the two low bits of the class byte of the last command, whatever was called on the APDUs since (violated: it reads the buffer the applet may write to; holds as long as no call aims at the first cell), and raises AttributeError before the first APDU.", "quantifier": "every command and every sequence of constructions and calls", "why_tests_cant": "all histories of the module", "anchors": ["pythoncard/framework/apdu.py:APDU.getCLAChannel"]}
{"id": "C96", "title": "The answers of the test applet", "statement": "The card of test/testApplet.py answers every short command with 37 4D 63 90 00 for instruction 8, 90 00 for 56 and 42, 6D 00 for other instructions and 6E 00 for interindustry classes; with an Le below 3 instruction 8 raises APDUException BAD_LENGTH; while selecting it answers 90 00; before _selectingApplet is set, AttributeError. Any other command, extended or malformed, is answered in the same way from its header and from what the APDU object returns: 67 00 if setIncomingAndReceive refuses its length.", "quantifier": "every header, data field, Lc and Le", "why_tests_cant": "all commands", "anchors": ["test/testApplet.py:BaseApplet.process,choice1", "pythoncard/framework/applet.py:Applet.selectingApplet,install,process"]}
{"id": "C97", "title": "getAvailableMemory with a buffer", "statement": "JCSystem.getAvailableMemory(buffer, offset, type) writes the short 32767 at the offset and changes nothing else; it raises NullPointerException for None and ArrayIndexOutOfBoundsException if the two bytes are not inside the buffer (violated: NameError in both cases, a byte may have been written, and negative offsets wrap around).", "quantifier": "every buffer, offset and memory type", "why_tests_cant": "all buffers and offsets", "anchors": ["pythoncard/framework/jcsystem.py:getAvailableMemory"]}
{"id": "C98", "title": "Nested TLVs are built, written, found and read back", "statement": "A nested data object built with PrimitiveBERTLV.init, ConstructedBERTLV.init and append, written with toBytes at any offset and read with getInstance, getTag, getLength, getValueOffset and getValue is the same object; its octets are its BER encoding; find(tag) returns the first child with the tag (violated when a contents is longer than 127 octets or a tag number exceeds 30; holds otherwise, for any depth).", "quantifier": "every tree of data objects, offset and output array", "why_tests_cant": "all trees of any depth", "anchors": ["pythoncardx/framework/tlv/bertlv.py:ConstructedBERTLV.append,find", "pythoncardx/framework/tlv/bertlv.py:BERTLV.toBytes,getInstance,getLength,getValueOffset"]}
{"id": "C99", "title": "Array operations can be split", "statement": "Copying, filling or comparing l1+l2 elements is the same as doing it for the first l1 and then for the next l2: same result, same arrays, same exception, also when source and destination are the same array and when an access fails.", "quantifier": "every pair of arrays (identical ones included), every offset, all l1 and l2 >= 0", "why_tests_cant": "all arrays and all ways of splitting", "anchors": ["pythoncard/framework/util.py:arrayCopy,arrayCopyNonAtomic,arrayFillNonAtomic,arrayCompare"]}
{"id": "C100", "title": "Laws of arrayCopy, arrayFillNonAtomic and arrayCompare", "statement": "After a copy the two ranges compare equal; saving a range, overwriting it and copying it back restores the array; arrayCompare is a total order on ranges (antisymmetric, transitive, 0 exactly on equal ranges); two ranges filled with v and w compare as v and w do.", "quantifier": "every array, offset and length inside the arrays", "why_tests_cant": "all arrays", "anchors": ["pythoncard/framework/util.py:arrayCopy,arrayFillNonAtomic,arrayCompare"]}
{"id": "C101", "title": "Exception classes", "statement": "An except clause catches an exception class exactly if the API documents it as the class or an ancestor; throwIt(reason) of every card exception is caught by the first such clause and getReason() is the reason, or the one last set with setReason (violated by CardException and UserException, which have neither throwIt nor getReason).", "quantifier": "every class, reason, list of except clauses and sequence of setReason calls", "why_tests_cant": "all handlers", "anchors": ["pythoncard/framework/__init__.py:CardException,CardRuntimeException,UserException,ISOException", "python/lang.py:RuntimeException", "pythoncard/security/__init__.py:CryptoException", "pythoncardx/framework/tlv/__init__.py:TLVException"]}
{"id": "C102", "title": "A tag object holds what its last init stored", "statement": "After any history of init calls, with failures caught, a PrimitiveBERTag or ConstructedBERTag has the class and number of the last init that returned, toBytes writes them and size() is their size (violated: an init that raises leaves None or the number of a truncated tag, and init(class, number) leaves the old size; holds right after an init that returned, except for size()).", "quantifier": "every sequence of init calls with every argument", "why_tests_cant": "all histories of the object", "anchors": ["pythoncardx/framework/tlv/bertag.py:PrimitiveBERTag.init,ConstructedBERTag.init,BERTag.init,BERTag.toBytes,BERTag.size"]}
{"id": "C103", "title": "Static BERTag functions, and tags are prefix-free", "statement": "BERTag.isConstructed, tagClass and tagNumber called with an array and an offset give the kind, class and number of the identifier there and raise ArrayIndexOutOfBoundsException if it does not end inside the array, and so does BERTag.size (violated: size raises IndexError); toBytes(class, kind, number, array, offset) writes the identifier; no identifier is a prefix of another.", "quantifier": "every array, offset, class, kind and number", "why_tests_cant": "all arrays and numbers", "anchors": ["pythoncardx/framework/tlv/bertag.py:BERTag._toBytesStatic,_sizeStatic,_isConstructedStatic,_tagClassStatic,_tagNumberStatic"]}
{"id": "C104", "title": "A BigNumber is an integer register", "statement": "In every history of init, add, subtract and multiply calls in which the caller catches what is raised, each call returns or raises, and changes the number, as on a register holding one unbounded integer; toBytes and compareTo then observe that integer.", "quantifier": "every sequence of calls with any operands, formats and lengths and non-negative offsets", "why_tests_cant": "all histories", "anchors": ["pythoncardx/framework/math.py:BigNumber.init,add,subtract,multiply,toBytes,compareTo"]}
{"id": "C105", "title": "Converting between BCD and HEX loses nothing", "statement": "What toBytes writes, init reads back as the same number; reading bytes in one format and writing them in the other gives the digits of the same number or ArithmeticException if there is no room; converting there and back gives the same bytes.", "quantifier": "every byte array (valid BCD where it is read as BCD), length and offset", "why_tests_cant": "all numbers and lengths", "anchors": ["pythoncardx/framework/math.py:BigNumber.init,toBytes"]}
{"id": "C106", "title": "OwnerPIN is the reference PIN object on strings", "statement": "With PINs given as strings without NUL characters, every history of check, update, reset, resetAndUnblock, setValidatedFlag, isValidated and getTriesRemaining calls, exceptions caught, gives call by call the results of a reference object made of the current PIN, the remaining tries and the flag; two histories that leave the reference in the same state cannot be told apart by any further calls.", "quantifier": "every try limit, maximal size >= 0, and sequence of calls with string PINs and non-negative offsets and lengths", "why_tests_cant": "all histories", "anchors": ["pythoncard/framework/ownerpin.py:OwnerPIN.check,update,reset,resetAndUnblock,isValidated,setValidatedFlag,getTriesRemaining"]}
{"id": "C107", "title": "A PIN cannot be guessed with more than tryLimit attempts", "statement": "After update with a PIN, in any sequence of check, reset, isValidated and getTriesRemaining calls, no check returns true unless one of the first tryLimit checks that count as attempts presents the PIN; and as long as the PIN is not presented, no result depends on which PIN it is.", "quantifier": "every try limit >= 0, earlier history, string PIN without NUL and sequence of guesses", "why_tests_cant": "all sequences of guesses and all pairs of PINs", "anchors": ["pythoncard/framework/ownerpin.py:OwnerPIN.check,update,reset,isValidated,getTriesRemaining"]}
{"id": "C108", "title": "The RSA example applet encrypts and decrypts", "statement": "The card of test/AppletRSA2048.py, after any commands, encrypts a message of up to 117 bytes to 128 bytes, which it decrypts to the message; it answers 6E00, 6D00 and 6B00 to other classes, instructions and P1 (violated: the ciphertext is the number without its last hexadecimal digit, every correct ciphertext is refused with CryptoException, and other classes raise NameError).", "quantifier": "every key pycrypto generates, history of commands, short command with data and Le, and random bytes", "why_tests_cant": "all messages, keys and histories", "anchors": ["test/AppletRSA2048.py:HandsonRSA2048EncryptDecrypt.__init__,process,encryptRSA,decryptRSA"]}
{"id": "C109", "title": "pyDes refuses text that is not ASCII", "statement": "A str of ASCII characters given to any constructor or method of des and triple_des means its bytes; a str with another character raises ValueError and changes nothing, so a history of calls behaves like the history without the refused calls (violated: triple_des.setKey with such a str can raise ValueError after it has exchanged one or two of the three keys, and getKey still returns the old one).", "quantifier": "every key, mode, IV, padding and sequence of setter, encrypt and decrypt calls with str and bytes arguments", "why_tests_cant": "all strings and histories", "anchors": ["pyDes/pyDes.py:_baseDes._guardAgainstUnicode", "pyDes/pyDes.py:des.__init__,setKey,encrypt,decrypt", "pyDes/pyDes.py:triple_des.setKey,setIV,setPadding,encrypt,decrypt"]}
{"id": "C110", "title": "getIV of a triple_des object returns bytes", "statement": "Whatever was done with a triple_des object, getIV returns bytes (violated: in CBC mode without an IV, a str key makes its first eight characters the IV, and getIV returns them as str).", "quantifier": "every triple_des object and history of calls", "why_tests_cant": "all histories", "anchors": ["pyDes/pyDes.py:triple_des.setKey", "pyDes/pyDes.py:_baseDes.getIV"]}
{"id": "C111", "title": "encrypt and decrypt of pyDes return bytes", "statement": "What encrypt and decrypt return is a bytes object, and decrypting what encrypt returned gives the message as bytes (violated exactly for empty data: des, and triple_des in ECB mode, return the str '' for it, and an empty message comes back as str).", "quantifier": "every des and triple_des object, data, pad character and padding mode", "why_tests_cant": "all data and settings", "anchors": ["pyDes/pyDes.py:des.crypt,encrypt,decrypt", "pyDes/pyDes.py:triple_des.encrypt,decrypt", "pyDes/pyDes.py:_baseDes._padData,_unpadData"]}
{"id": "C112", "title": "The padding arguments of encrypt and decrypt mean the padding setters", "statement": "encrypt(data, pad, padmode) and decrypt(data, pad, padmode) give what encrypt(data) and decrypt(data) give after setPadding and setPadMode with the arguments given; a pad character with PAD_PKCS5 is refused (violated: decrypt with a pad character on a PAD_PKCS5 object is not refused, and with padding modes other than the two the pad character of the call is ignored).", "quantifier": "every des object, every triple_des object after any history, data, pad and padding mode", "why_tests_cant": "all settings and arguments", "anchors": ["pyDes/pyDes.py:_baseDes._padData,_unpadData", "pyDes/pyDes.py:des.encrypt,decrypt,crypt", "pyDes/pyDes.py:triple_des.encrypt,decrypt"]}
{"id": "C113", "title": "An APDU leaves the caller's command array alone", "statement": "The list an APDU object was built from is the caller's: no call on the object changes it, nor any list but its own buffer (violated: the object keeps the list itself, and every send writes the response over its first cells; before the first send nothing but the buffer changes, and never a third list).", "quantifier": "every command array, number of APDU objects and sequence of calls", "why_tests_cant": "aliasing over all histories", "anchors": ["pythoncard/framework/apdu.py:APDU.__init__,sendBytes,sendBytesLong,setOutgoingAndSend"]}
{"id": "C114", "title": "APDU objects do not disturb each other", "statement": "In a program with several APDU objects each behaves as if it were alone (violated when two are built from the same list: the second then receives the response of the first as its data; holds for all programs in which no list is used twice).", "quantifier": "every set of lists, and interleaved sequences of constructions, calls, sends from the program's own lists and stores into them", "why_tests_cant": "all interleavings", "anchors": ["pythoncard/framework/apdu.py:APDU.__init__,setIncomingAndReceive,sendBytes,sendBytesLong"]}
{"id": "C115", "title": "A TLV changes by calls on it only", "statement": "As long as no method of a TLV is called, its size and what toBytes writes do not change: initialising again the tag object it was made from has no effect (true: init copies the tag), nor initialising the object getTag returned (violated: that is the TLV's own tag).", "quantifier": "every program of tag and TLV constructions, init, append, replaceValue, getTag and find calls", "why_tests_cant": "aliasing over all histories", "anchors": ["pythoncardx/framework/tlv/bertlv.py:BERTLV.getTag", "pythoncardx/framework/tlv/bertlv.py:PrimitiveBERTLV.init", "pythoncardx/framework/tlv/bertlv.py:ConstructedBERTLV.init", "pythoncardx/framework/tlv/bertag.py:BERTag.init"]}
{"id": "C116", "title": "genKeyPair fills the keys of the pair", "statement": "The objects getPublic and getPrivate returned before genKeyPair are initialised by it and are those returned after it (violated: genKeyPair puts two new objects into the pair and leaves the old ones uninitialised for ever; no call but its own setters ever changes a key object, and a pair made of two given keys refers to these two for ever).", "quantifier": "every program of key and pair constructions, setters, genKeyPair, getPublic and getPrivate calls, every behaviour of pycrypto", "why_tests_cant": "aliasing over all histories", "anchors": ["pythoncard/security/keypair.py:KeyPair.__init__,genKeyPair,pyCryptogenKeyPair,getPublic,getPrivate"]}
{"id": "C117", "title": "A CRT private key can be filled and read", "statement": "PyCryptoRSAPrivateCrtKey has type 6, is initialised once its key is given, and its getters and setters work (violated: type 5, never initialised; every getter and setter raises TypeError when called as documented, setTheKey raises NameError after it has stored the key).", "quantifier": "every size and sequence of calls", "why_tests_cant": "all histories", "anchors": ["pythoncard/security/privatekey.py:RSAPrivateCrtKey,PyCryptoRSAPrivateCrtKey"]}
{"id": "C118", "title": "Every method of the TLV package can be called as documented", "statement": "Each method of javacardx.framework.tlv can be called on an object, or on the class if it is static, with the documented number of arguments, in every subclass, and reaches the function that implements it (violated: equals, verifyFormat, delete and appendValue do not exist, getTag and PrimitiveBERTLV.toBytes have no static form; static methods cannot be called through an object where there is an instance method of the same name).", "quantifier": "every application subclass and object dictionary that does not redefine the package's names; for the override rule, one that redefines the instance function", "why_tests_cant": "all subclasses and objects", "anchors": ["pythoncard/utils.py:NotAlwaysStatic", "pythoncardx/framework/tlv/bertag.py:BERTag", "pythoncardx/framework/tlv/bertlv.py:BERTLV,ConstructedBERTLV,PrimitiveBERTLV"]}
{"id": "C119", "title": "An APDU is a command-response exchange", "statement": "For every command the library decodes correctly (all short cases; the extended cases 2 and 4 with an Le it can read) and every sequence of calls whose ranges lie inside the arrays, each call returns or raises, and leaves buffer, state and response, as a reference exchange that only knows the phase, the data still to deliver, the expected and announced lengths and the bytes sent.", "quantifier": "every understood command, every header, every sequence of calls, including refused ones and receives that do not fit", "why_tests_cant": "all histories against a reference", "anchors": ["pythoncard/framework/apdu.py:APDU.__init__,setIncomingAndReceive,receiveBytes,setOutgoing,setOutgoingLength,sendBytes,sendBytesLong,setOutgoingAndSend,getBuffer,getCurrentState"]}
{"id": "C120", "title": "A cipher works with the key as it was at init", "statement": "After a successful init the answers of a cipher are those of a cipher that took a copy of the key then: no later call on the key object, on other keys, on key pairs or on other ciphers changes what doFinal returns or writes. Calls on ciphers never change a key or a key pair.", "quantifier": "every program of calls on any number of keys, key pairs and ciphers (DES and RSA), including refused calls, every behaviour of pycrypto", "why_tests_cant": "aliasing over all interleavings of calls", "anchors": ["pythoncardx/crypto/cipher.py:Cipher.init,_PyCryptoRSACipher.init,doFinal,_pyDesDESCipher.init,doFinal", "pythoncard/security/publickey.py:standardSetter", "pythoncard/security/privatekey.py:standardSetter", "pythoncard/security/secretkey.py:pyDesDESKey.setKey"]}
{"id": "C121", "title": "The class byte is decoded per ISO 7816-4", "statement": "On a new APDU isISOInterindustryCLA, isCommandChainingCLA, isSecureMessagingCLA and APDU.getCLAChannel decode the class byte, signed or unsigned, as ISO 7816-4 says for the first and the further interindustry classes (violated: isSecureMessagingCLA always returns None, and getCLAChannel returns the channel modulo 4, wrong for every further interindustry class).", "quantifier": "every command, every class byte, every history of the module before", "why_tests_cant": "all class bytes and histories", "anchors": ["pythoncard/framework/apdu.py:isISOInterindustryCLA,isCommandChainingCLA,isSecureMessagingCLA,getCLAChannel"]}
{"id": "C122", "title": "Block sizes and protocol are those the APDU works with", "statement": "No receive call delivers more than getInBlockSize() bytes and no history of calls sends more than getOutBlockSize() bytes; getProtocol() compared through the masks is T=1 over the default media and nothing else.", "quantifier": "every command and history of calls", "why_tests_cant": "all histories", "anchors": ["pythoncard/framework/apdu.py:getInBlockSize,getOutBlockSize,getProtocol,setIncomingAndReceive,receiveBytes,sendBytes"]}
{"id": "C123", "title": "The kind of sequence a command is makes no difference", "statement": "An APDU constructed from a bytes object answers every sequence of calls with the same results and exceptions, and has the same buffer and state, as one constructed from a list of the same integers (violated: no call that sends ever succeeds, it raises TypeError).", "quantifier": "all commands of bytes 0..255, all histories of calls on the APDU", "why_tests_cant": "Tests build APDUs from lists; which calls assign to the stored command, in which states and after which checks, depends on the whole history.", "anchors": ["pythoncard/framework/apdu.py:59-62", "pythoncard/framework/apdu.py:214-241"]}
{"id": "C124", "title": "A TLV object that was not initialised says so", "statement": "As in the Java Card API, size, toBytes and getValue on a TLV object that has not been initialised raise TLVException(EMPTY_TLV) and write nothing; initialising it with a tag and a value makes it the same object whatever was called on it before (violated: size and toBytes raise AttributeError, getValue returns 0).", "quantifier": "both classes of TLV objects, all histories of init, append and replaceValue, all arguments", "why_tests_cant": "Tests initialise every object before using it; the claim is about all sequences of calls before the first init, including failing ones.", "anchors": ["pythoncardx/framework/tlv/bertlv.py:33-37", "pythoncardx/framework/tlv/bertlv.py:56-95", "pythoncardx/framework/tlv/bertlv.py:102-120", "pythoncardx/framework/tlv/bertlv.py:226-233"]}
{"id": "C125", "title": "The constants have the values of the Java Card API", "statement": "Every constant of the Java Card API that the library defines (status words, offsets, APDU states and protocols, reason codes, algorithms, key types and lengths, modes, array and memory types) has the value it has there, so that numbers exchanged with a card or written in an applet mean the same; and the reasons of one exception class, the status words, and the constants naming alternatives of one choice (states, protocols, algorithms, modes, paddings, key and memory types) are pairwise different; the states of a failed transmission are the negative ones; a key or digest length named after its number (LENGTH_RSA_512, LENGTH_SHA_256) has it (violated: the reason codes of APDUException and PINException and the protocol codes of APDU are numbered differently; everything else agrees).", "quantifier": "all constants of the table of the Java Card API, by class and name; all pairs of reasons and of status words", "why_tests_cant": "The tests use the constants by name on both sides, so a wrong number is never seen; the claim is about every entry of the tables and all pairs.", "anchors": ["pythoncard/framework/ISO7816.py:11-48", "pythoncard/framework/__init__.py:39-63", "pythoncard/framework/apdu.py:38-57", "pythoncard/security/__init__.py:3-8", "pythoncard/security/keybuilder.py:4-70", "pythoncardx/crypto/cipher.py:20-71"]}
{"id": "C126", "title": "The class constants of BERTag name the tag classes", "statement": "A tag initialised with the constant of a class (BER_TAG_CLASS_MASK_UNIVERSAL, _APPLICATION, _CONTEXT_SPECIFIC, _PRIVATE) and a number is encoded with the bits X.690 gives that class, and tagClass() of a parsed tag is the constant of its class (violated for all four: each constant stands for another class).", "quantifier": "the four classes, primitive and constructed tags, all tag numbers, all arrays and offsets", "why_tests_cant": "Tests pass class numbers as literals and never use the constants; the claim covers every tag number and both directions.", "anchors": ["pythoncardx/framework/tlv/bertag.py:19-22", "pythoncardx/framework/tlv/bertag.py:43-45", "pythoncardx/framework/tlv/bertag.py:61-63", "pythoncardx/framework/tlv/bertag.py:146-150"]}
{"id": "C127", "title": "The modules can be imported in any order", "statement": "Every program that imports modules of the library, in any order and repeatedly, gets them all without an exception, with or without pycrypto, and the same modules with the same contents whatever the order; an exception class seen through several modules is one class, so that a handler catches what another module raises (violated in the layout setup.py installs: pyDes is left out of the packages and required as the plain module pyDes.py, `from pyDes import pyDes` then fails, and pythoncard.security can never be imported).", "quantifier": "all sequences of modules of the library, both presences of pycrypto, all earlier import attempts", "why_tests_cant": "The packages import each other in circles, so whether a name exists when it is needed depends on which module was imported first; tests fix one order per file.", "anchors": ["pythoncard/security/__init__.py:1-33", "pythoncard/security/keybuilder.py:1-3", "pythoncard/framework/__init__.py:1-78", "pythoncard/security/secretkey.py:1-4", "pythoncardx/crypto/cipher.py:1-16", "setup.py:15-16"]}
{"id": "C128", "title": "Every global name in a function has a value", "statement": "In every program that has imported a module of the library, every global name used in a function or method of that module (with the attributes taken from modules) has a value, so that no call fails with NameError (violated: eighteen uses raise NameError, among them the exceptions meant to be raised for bad arguments; without pycrypto two more raise AttributeError).", "quantifier": "all functions and methods of all modules, all programs importing them in any order, both presences of pycrypto", "why_tests_cant": "A misspelt name fails only on the path that reaches it, and a name bound by a late circular import only in some orders; the claim covers all uses and all orders.", "anchors": ["pythoncard/framework/aid.py:22-31", "pythoncard/framework/util.py:21-30", "pythoncard/framework/jcsystem.py:1-72", "pythoncard/security/messagedigest.py:1-60", "pythoncard/security/random.py:1-29", "pythoncard/security/signature.py:1-76", "pythoncardx/framework/tlv/bertlv.py:96-233", "pyDes/pyDes.py:228-240"]}
{"id": "C129", "title": "The classes of the Java Card API can be imported from their packages", "statement": "A program can import every class and interface of the Java Card API 2.2.2 from the package of its name, whatever it has imported before (violated: exactly thirty-three of them are missing, and importing them raises ImportError).", "quantifier": "all classes of the API, all programs of imports before, both presences of pycrypto", "why_tests_cant": "Tests import only what they use; the claim covers every class and every state of the interpreter the program may have reached.", "anchors": ["python/lang.py", "python/io.py", "python/rmi.py", "pythoncard/framework/__init__.py", "pythoncard/framework/service/__init__.py", "pythoncard/security/__init__.py", "pythoncardx/"]}
{"id": "C130", "title": "The methods of the Java Card API can be called with their arguments", "statement": "On every object the library creates for a class of the Java Card API 2.2.2, and on the class itself for static methods, a method of the API called with the number of arguments it has there reaches a function that accepts them; and so do the constructors (violated: exactly fifty methods of objects and twenty-one static methods raise AttributeError or TypeError, among them every accessor of an RSA CRT private key; the constructors are right).", "quantifier": "all classes of the API that the library defines, all their methods and overloads, all programs of imports before, both presences of pycrypto", "why_tests_cant": "Tests call the methods they exercise; a method inherited from the wrong class, missing, or short of its self parameter fails only when called. The claim covers every method and every import order.", "anchors": ["pythoncard/framework/", "pythoncard/framework/service/", "pythoncard/security/privatekey.py:60-110", "pythoncardx/framework/tlv/bertlv.py", "pythoncardx/framework/util/intx.py", "pythoncardx/framework/math.py"]}
{"id": "C131", "title": "Every attribute used inside the library exists", "statement": "In every program that has imported a module, an attribute of a class that one of its functions names exists in the class or a base class; and an attribute or method that a method takes from self is defined by the class, a base class, or assigned to self in one of their methods (violated once: Applet.selectingApplet reads self._selectingApplet, which nothing sets).", "quantifier": "all functions and methods of all modules, all programs importing them in any order, both presences of pycrypto", "why_tests_cant": "A misspelt attribute fails only on the path that reaches it; the claim covers all uses, through all base classes, in all import orders.", "anchors": ["pythoncard/framework/applet.py:26-30", "pythoncard/security/", "pythoncardx/", "pyDes/pyDes.py"]}
{"id": "C132", "title": "A byte may be stored signed or unsigned", "statement": "Arrays are lists of ints in which a byte is found as -128..127 or as 0..255 (the library itself stores both). Whatever form a caller uses, calls on the same bytes have the same outcome: shorts, copies and fills, AIDs, PINs, ints, BigNumbers, APDU commands and histories, tags, TLVs, DES keys and ciphers, digests and RSA keys (violated for arrayCompare, AID and PIN comparison, getInt, TLV lengths of the long form, RSA numbers; proved for all the others).", "quantifier": "all pairs of arrays whose cells are equal or equal modulo 256 in -128..255, all offsets and lengths, all states, all histories of calls", "why_tests_cant": "a test compares one pair of arrays; the claim relates every pair of representations through whole histories", "anchors": ["pythoncard/framework/util.py", "pythoncard/framework/aid.py", "pythoncard/framework/ownerpin.py", "pythoncardx/framework/util/intx.py", "pythoncard/framework/apdu.py:59-241", "pythoncardx/framework/math.py", "pythoncardx/framework/tlv/bertag.py:31-59", "pythoncardx/framework/tlv/bertlv.py:13-54", "pythoncard/security/key.py:19-37"]}
{"id": "C133", "title": "Input and output may be the same array", "statement": "Cipher.doFinal (DES and RSA), MessageDigest.doFinal and the static append of ConstructedBERTLV work on arrays that may be one array, with any overlap: result, object and output are those of the call with a copy of the input, and no array but the output array is written. In particular a message encrypted in place is decrypted in place.", "quantifier": "all pairs of arrays, equal or not, all offsets and lengths, all objects and contents, every hash function and RSA implementation", "why_tests_cant": "Tests use separate buffers; that no call reads its input after it has begun to write its output needs every overlap and every length.", "anchors": ["pythoncardx/crypto/cipher.py:167-198", "pythoncardx/crypto/cipher.py:249-264", "pythoncard/security/messagedigest.py:66-86", "pythoncardx/framework/tlv/bertlv.py:121-128"]}
{"id": "C134", "title": "selectingApplet tells whether the applet is being selected", "statement": "In every history of applet creations, method calls and notifications by the surrounding system (assignments to _selectingApplet), selectingApplet() of an applet returns what the system stored last for this applet, False if it stored nothing (violated: AttributeError). The other methods of Applet have their defaults: select agrees, reSelectingApplet is False, install, process and getShareableInterfaceObject raise NotImplementedError, and none of them changes an applet.", "quantifier": "all histories over any number of applets", "why_tests_cant": "A test follows one applet through a few commands; that applets do not disturb each other needs all interleavings.", "anchors": ["pythoncard/framework/applet.py:3-52", "test/testApplet.py:68-71"]}
{"id": "C135", "title": "Errors reach the applet as exceptions of the Java Card API", "statement": "The calls of the library (81 functions and methods of Util, AID, OwnerPIN, APDU, BigNumber, JCint, BERTag, BERTLV, JCSystem, Dispatcher, Memory, MessageDigest, RandomData, the keys, KeyPair, Cipher and Signature) end with a result or with a subclass of RuntimeException, the class applets catch (violated by 46 of them: IndexError, NameError, TypeError, AttributeError, KeyError, ValueError, NotImplementedError or UnboundLocalError). For each call, the set of exceptions it can end with is exactly the listed one.", "quantifier": "all arguments of the expected types (ints, arrays of ints, objects), all objects in every state a program can bring them to, every hash function and RSA implementation", "why_tests_cant": "Tests show one failing input for an exception; that a call never ends with another exception needs all inputs and all states of the object.", "anchors": ["python/lang.py:5-23", "pythoncard/framework/util.py", "pythoncard/framework/aid.py", "pythoncard/framework/ownerpin.py:26-84", "pythoncard/framework/apdu.py:59-271", "pythoncardx/framework/math.py", "pythoncardx/framework/util/intx.py", "pythoncardx/framework/tlv/bertag.py", "pythoncardx/framework/tlv/bertlv.py", "pythoncard/framework/jcsystem.py:48-72", "pythoncard/framework/service/dispatcher.py:9-23", "pythoncardx/external/memory.py:7-9", "pythoncard/security/messagedigest.py:59-89", "pythoncard/security/random.py:9-29", "pythoncard/security/secretkey.py:17-26", "pythoncard/security/publickey.py:31-88", "pythoncard/security/privatekey.py:60-64", "pythoncard/security/keybuilder.py:72-91", "pythoncard/security/keypair.py:18-36", "pythoncard/security/signature.py:47-59", "pythoncardx/crypto/cipher.py:73-126"]}
{"id": "C136", "title": "A call that fails changes nothing", "statement": "When one of the 43 calls that write an array or an object raises an exception, the array and the object are what they were before the call (violated by 27 of them: Util.arrayCopy and the other calls that write an array write as far as the array reaches; Cipher.init keeps the new mode, BigNumber.init and OwnerPIN.update what they read so far, RSAPublicKey.setExponent and setModulus the bytes RSA.construct refused). The other 16 calls keep it: getBytes and getPartialBytes of AID, setIncomingAndReceive, setOutgoing, setOutgoingLength, sendBytes and sendBytesLong of APDU, add, subtract and multiply of BigNumber, append of ConstructedBERTLV, addService of Dispatcher, update of MessageDigest, setModulus of RSAPrivateKey, genKeyPair of KeyPair and update of Cipher. OwnerPIN.check is not one of the calls: it counts failures (C13).", "quantifier": "all arguments, all arrays, all objects in every state a program can bring them to", "why_tests_cant": "A test checks the exception of one failing call; that nothing was written needs all failing calls and the complete state.", "anchors": ["pythoncard/framework/util.py:21-66", "pythoncard/framework/aid.py:16-30", "pythoncard/framework/ownerpin.py:65-83", "pythoncard/framework/apdu.py:115-271", "pythoncardx/framework/math.py", "pythoncardx/framework/util/intx.py", "pythoncardx/framework/tlv/bertag.py", "pythoncardx/framework/tlv/bertlv.py", "pythoncardx/crypto/cipher.py:60-264", "pythoncard/security/publickey.py:31-88", "pythoncard/security/messagedigest.py:59-89", "pythoncard/framework/service/dispatcher.py:9-23"]}
{"id": "C137", "title": "Byte arrays stay byte arrays", "statement": "A program that passes arrays whose cells are bytes of Java (-128..127) finds bytes of Java in every array a call writes, whether the call succeeds or fails: Util, JCint, AID, the APDU buffer and response over whole histories, BigNumber, BERTag, BERTLV, Memory and JCSystem, MessageDigest, RandomData, DES and RSA keys, Cipher (violated by the static append of ConstructedBERTLV, getAvailableMemory, generateData, exponent and modulus of generated RSA keys and RSA doFinal, which store larger numbers, and by failing calls of toBytes of BERTag and BERTLV; all other calls keep it).", "quantifier": "all arguments with arrays of bytes, all objects in the states a program can bring them to, every hash function, random source and RSA implementation; successful calls and all calls", "why_tests_cant": "Tests compare single results; that no call ever leaves a number outside -128..127 needs all contents and all states.", "anchors": ["pythoncard/utils.py:1-20", "pythoncard/framework/util.py", "pythoncardx/framework/util/intx.py", "pythoncard/framework/apdu.py:59-271", "pythoncardx/framework/math.py", "pythoncardx/framework/tlv/bertag.py:61-92", "pythoncardx/framework/tlv/bertlv.py:56-128", "pythoncard/framework/jcsystem.py:48-72", "pythoncard/security/random.py:9-29", "pythoncard/security/keypair.py:18-36", "pythoncardx/crypto/cipher.py:128-264"]}
{"id": "C138", "title": "A call reads the bytes it is given, and no others", "statement": "A call that gets an array with offset and length (or an encoding that tells its length) depends on the bytes of this range only: if another array has the same bytes at another offset, whatever is around them, the call has the same result and the same effect. 36 calls: Util, JCint, AID, OwnerPIN, sendBytesLong, BigNumber, tags, TLVs, MessageDigest, DES and RSA keys, Cipher (violated by BERTLV.getInstance and init with a length that ends within the header, which read on behind the range, and without length by getInstance and getLength, which accept a truncated TLV; the other 32 keep it).", "quantifier": "all arrays, contents around the range, offsets, lengths and object states", "why_tests_cant": "A test uses one buffer; independence of the surroundings is a statement about pairs of calls on all pairs of arrays.", "anchors": ["pythoncard/framework/util.py:11-57", "pythoncardx/framework/util/intx.py:25-31", "pythoncard/framework/aid.py:4-37", "pythoncard/framework/ownerpin.py:26-83", "pythoncard/framework/apdu.py:226-236", "pythoncardx/framework/math.py:49-101", "pythoncardx/framework/tlv/bertag.py:31-59", "pythoncardx/framework/tlv/bertlv.py:13-59", "pythoncard/security/messagedigest.py:66-86", "pythoncard/security/secretkey.py:21-23", "pythoncard/security/publickey.py:68-76", "pythoncardx/crypto/cipher.py:167-264"]}
{"id": "C139", "title": "Calls return the number the API defines", "statement": "A call that succeeds returns the number the Java Card API documents: Util and JCint the offset behind the last byte written, toBytes, getBytes, getValue, the key getters and doFinal the number of bytes written, init, append and replaceValue the size of the TLV. 21 calls (violated by arrayCopy, arrayCopyNonAtomic, arrayFillNonAtomic, setShort, replaceValue, DESKey.getKey and Cipher.update, which return None, by init and append of TLVs longer than 253 bytes, and by RSA doFinal; the other 11 return it).", "quantifier": "all arrays, offsets, lengths, tags of every number, TLVs, keys, digests and cipher histories", "why_tests_cant": "A test compares a few results; that the size formula is right for every tag number and that every ciphertext has the padded length needs an argument over all of them.", "anchors": ["pythoncard/framework/util.py:21-66", "pythoncardx/framework/util/intx.py:33-41", "pythoncard/framework/aid.py:16-20", "pythoncardx/framework/tlv/bertag.py:61-83", "pythoncardx/framework/tlv/bertlv.py:76-120", "pythoncardx/framework/tlv/bertlv.py:226-233", "pythoncard/security/secretkey.py:25-26", "pythoncard/security/publickey.py:31-76", "pythoncard/security/privatekey.py:16-64", "pythoncard/security/messagedigest.py:76-86", "pythoncardx/crypto/cipher.py:124-130", "pythoncardx/crypto/cipher.py:167-264"]}
{"id": "C140", "title": "Returned numbers fit the Java type", "statement": "Every number a call returns lies in the range of its result type in the Java Card API (byte, short, int), when the arguments have their Java types and array offsets are not negative. 31 calls (violated by makeInt and getInt, getIncomingLength and setOutgoing with extended lengths, tagNumber and size of BERTag, and getLength, size, getValueOffset, toBytes and getValue of BERTLV; the other 18 keep it).", "quantifier": "all arrays of at most 32767 signed bytes, offsets, PIN and APDU histories, tags, keys, digests, cipher objects", "why_tests_cant": "A test sees the numbers of a few calls; that none ever leaves its type is a statement about all arrays and histories.", "anchors": ["pythoncard/framework/util.py:10-66", "pythoncardx/framework/util/intx.py:25-57", "pythoncard/framework/aid.py:16-20", "pythoncard/framework/ownerpin.py:10-88", "pythoncard/framework/apdu.py:59-139", "pythoncard/framework/apdu.py:160-200", "pythoncard/framework/apdu.py:254-281", "pythoncardx/framework/math.py:88-101", "pythoncardx/framework/tlv/bertag.py:31-122", "pythoncardx/framework/tlv/bertlv.py:13-95", "pythoncardx/framework/tlv/bertlv.py:221-228", "pythoncard/security/publickey.py:31-76", "pythoncard/security/messagedigest.py:76-86", "pythoncardx/crypto/cipher.py:167-264"]}
{"id": "C141", "title": "A PIN keeps a secret", "statement": "An applet that calls OwnerPIN.reset when it is selected, OwnerPIN.check on the data of VERIFY and isValidated before READ answers as a vault: READ gives the secret only after the PIN was presented since the last selection, each wrong PIN costs a try, no try left refuses the right PIN too, and a terminal that did not present the PIN gets the same answers whatever the secret is (violated: when the PIN is shorter than maxPINSize, a guess with the same first byte opens it; so does a guess of one byte too many; and the card is open from installation to the first selection. Holds for PINs of the maximum size without a zero byte and VERIFYs of at most this size; and for all commands, PINs and states, nothing depends on the secret until a VERIFY is answered 9000).", "quantifier": "every PIN, secret, try limit, and every sequence of selections and commands, well formed or not", "why_tests_cant": "A test plays one dialogue; secrecy compares all pairs of secrets over all dialogues.", "anchors": ["pythoncard/framework/ownerpin.py:16-96", "pythoncard/framework/apdu.py:59-130", "pythoncard/framework/apdu.py:160-236", "test/testApplet.py:69-84"]}
{"id": "C142", "title": "A card encrypts and decrypts as FIPS 46-3 says", "statement": "An applet that calls DESKey.setKey on the data of PUT KEY, and Cipher.init and doFinal on the data of ENCRYPT and DECRYPT, answers every history of commands as the standard says: the ciphertext of the message under the last key, in the mode of the algorithm with a zero IV and PKCS #5 padding where the algorithm has it, the message for its ciphertext, and no data for a missing key, a wrong mode, a length that is no multiple of 8 or wrong padding (violated: wrong padding is not refused, the last byte tells how much is cut off. All other answers are the standard's).", "quantifier": "every DES algorithm and key size, every sequence of short commands with any data", "why_tests_cant": "A test plays one dialogue with a few vectors; that no earlier command, failed or not, changes a later answer is a statement about all histories.", "anchors": ["pythoncardx/crypto/cipher.py:72-126", "pythoncardx/crypto/cipher.py:200-264", "pythoncard/security/secretkey.py:14-30", "pythoncard/security/keybuilder.py:72-91", "pythoncard/framework/apdu.py:59-130", "pythoncard/framework/apdu.py:160-236", "pyDes/pyDes.py:90-260", "test/testApplet.py:69-84"]}
{"id": "C143", "title": "A purse counts money", "statement": "An applet that keeps a balance in a BigNumber of m bytes, calls add and subtract on the data of CREDIT and DEBIT and answers BALANCE with toBytes is a purse: an amount it answers 9000 is added or taken, one that is no BCD number, or would leave less than nothing or more than m bytes hold, is refused and changes nothing, and BALANCE shows what was credited less what was debited (violated: subtract goes below zero, BALANCE then shows zero and later credits vanish; add goes beyond m bytes and BALANCE fails; nibbles above 9 are counted as BCD digits. It holds except for these three; and an applet that asks compareTo before subtract and after add never gains or loses an amount).", "quantifier": "every balance size, every sequence of short commands with any data in either format", "why_tests_cant": "A test plays one dialogue; that the books balance after every sequence of credits, debits and refusals is a statement about all histories.", "anchors": ["pythoncardx/framework/math.py:43-47", "pythoncardx/framework/math.py:49-65", "pythoncardx/framework/math.py:77-101", "pythoncardx/framework/math.py:103-121", "pythoncard/framework/apdu.py:59-130", "pythoncard/framework/apdu.py:160-236", "test/testApplet.py:69-84"]}
{"id": "C144", "title": "A card opens to those who answer its challenge", "statement": "An applet that draws a challenge with RandomData.generateData, decrypts the data of EXTERNAL AUTHENTICATE with Cipher and compares the two with Util.arrayCompare opens exactly to the encryption of the challenge under its key; a challenge is good for one attempt; a failed or second attempt closes the card (violated: generateData stores bytes 0..255 and doFinal bytes -128..127, which arrayCompare tells apart, so the right answer is refused unless all 8 bytes of the challenge are below 128, one challenge in 256. Holds otherwise: nothing but the encryption of the last challenge is ever accepted, and an applet that makes the bytes of the challenge signed is right).", "quantifier": "every key, secret and random source, every sequence of short commands with any data", "why_tests_cant": "A test that fixes the random bytes sees one challenge, one that does not fails at random; that nothing else opens the card is a statement about all histories.", "anchors": ["pythoncard/security/random.py:5-29", "pythoncard/framework/util.py:10-19", "pythoncardx/crypto/cipher.py:72-126", "pythoncardx/crypto/cipher.py:200-264", "pythoncard/security/secretkey.py:14-30", "pythoncard/framework/apdu.py:59-130", "pythoncard/framework/apdu.py:160-236", "test/testApplet.py:69-84"]}
{"id": "C145", "title": "A card digests what it is sent, however it is cut", "statement": "An applet that feeds the data of its HASH commands to MessageDigest.update, block by block as setIncomingAndReceive and receiveBytes deliver them, and answers doFinal on the last command, answers the digest of all data since the previous digest, for every way of cutting the data into commands (violated: a well-formed extended command with data is refused with 6700 if it has no Le or an Le that ends in a zero byte, and an extended command without data whose Le ends in a zero byte has the first byte of its Le hashed. Holds for all other commands, short and extended, of any length; an answer that does not fit Le is an exception, and the digest starts anew).", "quantifier": "every hash function, every sequence of commands of all seven cases of ISO 7816-4, with up to 65535 bytes of data", "why_tests_cant": "The data of a command are received in blocks of 128 bytes at an offset that depends on the case; that no byte is lost, doubled or taken from a length field is a statement about all lengths and all ways of cutting.", "anchors": ["pythoncard/security/messagedigest.py:35-89", "pythoncard/framework/apdu.py:59-130", "pythoncard/framework/apdu.py:132-236", "test/testApplet.py:69-84"]}
{"id": "C146", "title": "A card gives back the data objects it was given", "statement": "An applet that parses the data of PUT DATA with BERTLV.getInstance, checks size() against the number of bytes, appends the object to a ConstructedBERTLV and answers GET DATA with find and toBytes answers the first object put with the tag, byte for byte, refuses data that are not one BER object with 6A80 and unknown tags with 6A83 (violated: a well-formed object whose length is in long form of one octet is refused with 6A80; malformed data tag 82 y 00 ... of y + 2 bytes are accepted, and GET DATA answers another object, with a byte that was never sent. Holds for tags of one byte and lengths in short form, right or wrong, for any number of objects).", "quantifier": "every sequence of short commands with any data; one-byte tags of all classes, primitive and constructed", "why_tests_cant": "The answer depends on every object stored before, through offsets that find computes from their lengths; the store grows without bound.", "anchors": ["pythoncardx/framework/tlv/bertlv.py:13-150", "pythoncardx/framework/tlv/bertag.py:31-131", "pythoncard/framework/apdu.py:59-130", "pythoncard/framework/apdu.py:160-236", "test/testApplet.py:69-84"]}
