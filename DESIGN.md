# Formal model of benallard/pythoncard in Rocq (Coq 8.16.1)

## 1. What is modelled and how

The model is a set of shallow, executable Gallina functions that follow the
Python code branch by branch (Python 3 semantics: the code base uses
`bytes([...])` and relative imports, so Python 3 is the language it runs under).

* Python `int` = `Z` (unbounded, `&`,`|`,`^`,`<<`,`>>`,`~` = `Z.land`,
  `Z.lor`, `Z.lxor`, `Z.shiftl`, `Z.shiftr`, `Z.lnot`).
* Python `list`/`bytes` = `list Z`, with Python indexing (negative indices count
  from the end, out of range = `IndexError`), Python slicing (clamped, never
  raises) and slice assignment (may change the length).  `theories/Py.v`.
* Exceptions are values (`exn`), a computation is `M S A := S -> res A * S`:
  the state after an exception is kept, so partial mutation is visible.
* `for i in range(n)` = structural recursion on a count; `while` loops =
  recursion on explicit fuel whose exhaustion is the distinct outcome
  `OutOfFuel` (never a normal looking value).  Theorems either prove that the
  fuel supplied by the model suffices or, for the loop that really diverges
  (`ConstructedBERTLV.find`), that no amount of fuel does.
* Aliasing: `Util.arrayCopy` works on a heap of arrays so that
  `src is dest` is expressible.  Elsewhere an argument that is read before
  anything is written is passed by value (said in the comment), so that it may
  be the same array as the output.
* A class is a record of its attributes (a missing attribute is `None`), a
  method a function on that record.  "After any history" is an induction over a
  list of calls, with any arguments; a call that raises is caught by the client
  and leaves the state it reached.
* External code (hashlib, os.urandom, pycrypto RSA) appears as function
  arguments universally quantified in the theorems, never as axioms.

File layout (`rocq/theories`): `Py.v` (Python semantics), `M_*.v` (model,
definitions only, each citing file and lines of /repo), `S_*.v` (independent
specifications: ISO 7816-4 APDU formats, BER, FIPS 46-3 DES, PKCS #1, ...; also
the full statements of violated properties, `Cnn_full`), `L_*.v` and `LP_*.v`
(lemmas and proofs), `P_*.v` (the property theorems, each closed by its proof in
`LP_*.v`, followed by `Print Assumptions` and by an `Example` showing that a
concrete case meets the hypotheses), `T_tests.v` (the repository's own unit tests
run on the model: tests of the model's fidelity, not proofs, and no property rests
on them).

## 2. Properties that the code violates

Many properties a Java Card user relies on are false of this code.  The
statement in `properties.jsonl` stays what the user relies on.  For each of
these we prove `..._refuted` (where possible a universally quantified failure:
every input of a class fails, with the exact outcome) about the faithful model
and the strongest true fragment as `..._partial`.  MANIFEST status is then
`partial`.

## 3. Per property: what is modelled and how it is proved

**C01, C02, C10.** Model: `M_utils.v`, `M_util.v`: signed, makeShort, setShort, getShort on `Z`. Specification: `S_Base.v` (two's complement as congruence and range). Proof: bit operations turned into `/` and `mod` (`Z.land_ones`, `Z.shiftr_div_pow2`), `lia`.

**C03, C04, C05, C06, C07, C08, C09.** Model: `M_util.v`: arrayCopy on a heap of arrays, arrayCompare, arrayFillNonAtomic, arrayCopyNonAtomic. Specification: `S_Base.v` (`sub`, `splice`), `S_Full1.v`, `S_ArrayAll.v` (which cells an index range names, for all integers). Proof: loop invariants by induction on the loop count; overlapping and failing copies by exact description of the state the loop leaves.

**C11, C12, C13, C14, C15, C16, C17.** Model: `M_ownerpin.v`: OwnerPIN as a state machine. Specification: `S_OwnerPIN.v` (events that affect flag and counter). Proof: invariants by induction over call histories; exact storage layout lemma for list PINs.

**C18, C19, C20, C21.** Model: `M_aid.v`. Specification: `S_Base.v`, `S_Full1.v`. Proof: slice lemmas.

**C22, C23, C24, C25, C26, C27, C28, C29, C30, C31.** Model: `M_apdu.v`: constructor and all methods. Specification: `S_APDU.v` (ISO 7816-4 command formats as an encoder), `S_ApduObs.v` (what an applet observes). Proof: case analysis on the format for all data; induction over receive loops, send sequences and arbitrary call histories.

**C32, C33, C34, C35, C36, C37.** Model: `M_bignumber.v`. Specification: `S_Number.v` (positional notation), `S_BigNumber.v`. Proof: induction on digit lists.

**C38.** Model: `M_jcint.v`. Specification: `S_Base.v`, `S_Number.v`, `S_ArrayAll.v`. Proof: arithmetic.

**C39, C40, C41, C42, C43, C44, C45, C46, C47, C48, C49, C50, C51.** Model: `M_bertag.v`, `M_bertlv.v`. Specification: `S_BER.v` (BER identifier and length encoders), `S_TLV.v` (child lists), `S_TlvTerm.v` (walks over the children, C46), `S_TlvFind.v` (the first child a walk reaches that carries the tag, C44; counting the occurrences, C45), `S_TlvParse.v` (what any array reads as, C39, C42). Proof: induction on 7-bit digits and child lists; non-termination by induction on the fuel.

**C52, C53, C54, C55, C56, C57, C63, C64.** Model: `M_des.v`: pyDes des and triple_des. Specification: `S_DES.v` (FIPS 46-3: tables and rounds on bit lists, ECB and CBC). Proof: the model is proved equal to the specification for all keys and blocks (tables compared by computation, rounds by induction); Feistel inversion by induction on rounds.

**C58, C59, C60, C61, C62.** Model: `M_cipher.v`: Cipher and the DES cipher. Specification: `S_Cipher.v`. Proof: on top of the DES theorems, over all histories of update and doFinal.

**C65, C66, C67, C68, C69, C70, C71, C72.** Model: `M_key.v`: keys, key builder, key pairs; PKCS #1 padding in `M_cipher.v`. Specification: `S_Key.v`, `S_Number.v`, `S_Full2.v`. Proof: state machines over setter histories with external RSA as parameter; induction on hexadecimal digits and on the random stream.

**C73, C74, C75.** Model: `M_digest.v`. Specification: `S_System.v`, `S_ArrayAll.v`, `S_DigestAll.v` (all offsets). Proof: histories with external hash and random source as parameters.

**C76, C77, C78.** Model: `M_system.v`, `M_util.v`. Specification: `S_System.v`, `S_Full2.v`. Proof: histories of calls.

**C79, C80, C81, C82, C83, C84.** Model: `M_des.v`. Specification: `S_DESX.v` (complement, weak keys, local changes). Proof: on the FIPS 46-3 specification: rounds commute with complement; palindromic subkeys; blockwise description of both modes.

**C85, C86, C87.** Model: `M_des.v`, `M_desx.v`: setters and getters on existing objects. Specification: `S_DesSettings.v` (the settings an object has after a history). Proof: simulation: every history leaves an object equivalent to a freshly created one.

**C88, C89, C90, C91, C92, C93.** Model: `M_cipher.v` (RSA cipher), `M_signature.v`. Specification: `S_RSA.v`. Proof: case analysis with external RSA as parameter, on top of the number conversion lemmas of C70.

**C94, C95.** Model: `M_world.v`: all APDU objects of a session and the global `_current`. Specification: `S_World.v` (the last successful construction in a trace). Proof: invariant over histories of constructions and calls.

**C96.** Model: `M_world.v`: the applet and card of test/testApplet.py. Specification: `S_World.v` (table of answers), `S_APDU.v`. Proof: symbolic execution on top of the decoding lemmas of C23.

**C97.** Model: `M_system.v`. Specification: `S_World.v`. Proof: case analysis.

**C98.** Model: `M_tree.v`: client programs calling `M_bertlv.v`. Specification: `S_Tree.v` (BER octets of a tree). Proof: induction on trees on top of the encoding lemmas of C39-C51.

**C99, C100.** Model: `M_util.v`. Specification: the statements are laws; `S_Base.v`. Proof: loop splitting (`for_loop_app`) and the exact results of C01-C09.

**C101.** Model: `M_exc.v`: the classes, their constructors, throwIt, setReason, getReason and the matching of except clauses. Specification: `S_Exc.v` (ancestors in the API documentation). Proof: case analysis over classes, induction over clauses.

**C102.** Model: `M_tagobj.v`: the tag object with attributes that may be None, init calls that may raise half-way. Specification: `S_TagObj.v`, `S_BER.v`. Proof: case analysis on top of C39-C43; the byte loop by induction.

**C103.** Model: `M_bertag.v`. Specification: `S_BER.v` (identifier octets). Proof: from C39-C43; prefix-freeness by induction over base-128 digits.

**C104, C105.** Model: `M_bignumber.v`, `M_bigrun.v` (histories). Specification: `S_BigRun.v` (integer register), `S_Number.v`. Proof: simulation, induction over histories.

**C106, C107.** Model: `M_ownerpin.v`. Specification: `S_PinRef.v` (reference PIN object, guesses). Proof: simulation with a reference object, induction over histories; two runs related step by step.

**C108.** Model: `M_rsaapplet.v` on `M_apdu.v`, `M_cipher.v`, `M_key.v`. Specification: `S_RsaApplet.v`, `S_RSA.v`. Proof: invariant of the card over all commands, then the theorems on APDU, padding and cipher composed.

**C109, C110, C111.** Model: `M_desstr.v` (values that are str or bytes, _guardAgainstUnicode, return types) on `M_des.v`. Specification: `S_DesStr.v` (ASCII encoding, histories without the refused calls). Proof: erasure: each call with str values is the call of `M_des.v` with their bytes; induction over histories; the exceptions step by step.

**C112.** Model: `M_des.v`, `M_desx.v`. Specification: `S_DesPad.v` (effective padding of a call). Proof: every step of encryption and decryption commutes with setting the padding when the data are whole blocks.

**C113, C114.** Model: `M_apduheap.v` (lists in a heap, APDUs refer to them) on `M_apdu.v`. Specification: `S_ApduHeap.v` (who shares a list with whom). Proof: invariant on the references over all programs; the view of an APDU commutes with every call while its lists are its own.

**C115.** Model: `M_tlvheap.v` (tag objects in a heap, TLVs refer to them) on `M_tagobj.v`, `M_bertlv.v`. Specification: `S_TlvHeap.v`. Proof: invariant: every TLV has a tag object of its own which the program did not make; frame over histories.

**C116, C117.** Model: `M_keyheap.v` (key objects in a heap, pairs refer to them; PyCryptoRSAPrivateCrtKey) on `M_key.v`. Specification: `S_KeyHeap.v`. Proof: invariant on the references over all programs, frame per call; induction over histories for the CRT key.

**C118.** Model: `M_lookup.v` (attribute lookup, NotAlwaysStatic, the class tables of the TLV package). Specification: `S_Lookup.v` (the documented interface, what a subclass may add). Proof: lookup in an arbitrary subclass reduces to lookup in the package, which is finite.

**C119.** Model: `M_apdu.v`. Specification: `S_ApduRef.v` (reference exchange: phases, undelivered data, bytes sent). Proof: simulation with the reference, induction over calls.

**C120.** Model: `M_session.v` (ciphers refer to keys in the heap of `M_keyheap.v`) on `M_cipher.v`. Specification: `S_Session.v` (a cipher on its own that copies the key at init). Proof: simulation: the part of an initialised key that doFinal reads never changes; induction over programs.

**C121, C122.** Model: `M_cla.v` (methods whose body is pass, protocol constants), `M_apdu.v`, `M_world.v`. Specification: `S_Cla.v` (class byte of ISO 7816-4). Proof: arithmetic of the bits of the class byte on top of C30 and C95; C122 from C26 and C29.

**C123.** Model: `M_apdubytes.v` (APDU methods when the command is an immutable bytes object) on `M_apdu.v`. Specification: `S_ApduBytes.v`. Proof: one call from any state by cases; frame over histories by induction.

**C124.** Model: `M_tlvlife.v` (the calls that change a TLV object) on `M_bertlv.v`. Specification: `S_TlvLife.v`. Proof: induction over histories.

**C125, C126.** Model: `M_consts.v` (all constants of the library by class and name; those used elsewhere are the ones of the other files), `M_bertag.v`. Specification: `S_Consts.v` (table of the Java Card API, class bits of X.690). Proof: computation over the two tables; C126 from C39.

**C127, C128, C129.** Model: `M_import.v` (import statement, sys.modules, packages, partially initialised modules), `M_imptab.v` (top-level statements of every file, global names of every function). Specification: `S_Import.v` (programs of imports, table of the Java Card classes). Proof: an import is shown to do the same in every interpreter that holds completely imported modules already (simulation), so any sequence is the union of single imports, which are computed; as installed, an invariant over all attempts.

**C130, C131.** Model: `M_classes.v` (the class dictionaries of every class, bases, functions with their arity, attributes read from and assigned to self) on `M_import.v` and the lookup of `M_lookup.v`. Specification: `S_Classes.v` (methods of the Java Card classes with their arity; the entries that fail). Proof: a class is shown to have the same bases in every program (from the simulation of C127), then computation over the tables.

**C132.** Model: the models of the other groups. Specification: `S_Signed.v` (same bytes, same outcome). Proof: a relation between two runs, carried through every call and every loop.

**C133.** Model: `M_bufheap.v` (doFinal of ciphers and digests and the static append on arrays in a heap). Specification: `S_Buf.v`. Proof: equality with the models that get the input by value; for C133_inplace then C58.

**C134.** Model: `M_applet.v`: applets as numbered objects with one attribute, histories of calls. Specification: `S_Applet.v` (what was stored last). Proof: induction over the history.

**C135.** Model: the models of the other groups. Specification: `S_Errors.v` (the calls, the objects a program can hold, the exceptions of each call). Proof: a predicate on the exceptions of a computation, closed under sequence and loops; for objects, invariants over their histories; each listed exception with an input that raises it.

**C136.** Model: the models of the other groups. Specification: `S_Atomic.v` (the calls that write, what it means to spoil an array or object). Proof: for the calls that keep it, every raise of the model comes before the first write; for the others a failing call.

**C137.** Model: the models of the other groups. Specification: `S_Bytes.v` (the calls that store bytes, what arrays they can leave). Proof: a predicate on computations that keep every cell in a range, closed under sequence, loops and copies; for toBytes the range -128..255 up to the final sanitycheck; DES outputs are bytes by the FIPS 46-3 theorems; for the others a call that stores a larger number.

**C138.** Model: the models of the other groups. Specification: `S_Local.v` (equal ranges in two arrays; the calls that read a range). Proof: the two runs are compared step by step (loops with equal bodies, slices of equal ranges); tags and TLVs by extending a successful run to a longer array.

**C139.** Model: the models of the other groups. Specification: `S_Return.v` (what each call returns in the Java Card API; sizes of BER identifiers and lengths). Proof: the identifier size by log2 over the chunk loop; the cipher lengths from the FIPS 46-3 theorems on blocks; for the others one successful call with another result.

**C140.** Model: the models of the other groups. Specification: `S_JavaType.v` (numeric types of the Java Card virtual machine, result types of the API). Proof: ranges from the frame lemmas of the writers (a call that succeeds wrote only inside the array), the invariants of C11 and C26; for the others one call with a result outside the type.

**C141.** Model: `M_pincard.v` (a client applet, not in /repo: VERIFY, READ and selection) on `M_ownerpin.v`, `M_apdu.v`. Specification: `S_PinCard.v` (the vault a terminal sees, terminals, which sessions guess wrongly). Proof: simulation with the vault, step by step on the decoding lemmas of C23 and the layout lemmas of C14; secrecy by comparing two runs on a closed card.

**C142.** Model: `M_descard.v` (a client applet, not in /repo: PUT KEY, ENCRYPT and DECRYPT) on `M_apdu.v`, `M_key.v`, `M_cipher.v`, `M_des.v`. Specification: `S_DesCard.v` (the card of the standard, with FIPS 46-3 of `S_DES.v` and `S_Cipher.v`; strict and careless removal of padding). Proof: simulation: an invariant that forgets everything about the cipher object but its algorithm; init is shown to erase the rest.

**C143.** Model: `M_purse.v` (a client applet, not in /repo: CREDIT, DEBIT and BALANCE, with and without guards) on `M_apdu.v`, `M_bignumber.v`. Specification: `S_Purse.v` (the account, with the balances that fit and the amounts that are well formed as parameters; what a terminal concludes from the answers). Proof: simulation of the card by the account; induction over histories for the books.

**C144.** Model: `M_chalcard.v` (a client applet, not in /repo: GET CHALLENGE, EXTERNAL AUTHENTICATE and READ) on `M_apdu.v`, `M_digest.v` (RandomData), `M_key.v`, `M_cipher.v`, `M_des.v`, `M_util.v`. Specification: `S_Chal.v` (the door: which challenge waits, whether it is open; the right answer by FIPS 46-3). Proof: simulation of the card by the door; decryption and encryption of a block are inverse in both directions; induction from the end of the history for what opened the door.

**C145.** Model: `M_hashcard.v` (a client applet, not in /repo: HASH with all data of the command, short or extended) on `M_apdu.v` and `M_digest.v`. Specification: `S_HashCard.v` (an accumulator of data; the hash function is an argument). Proof: induction over the blocks of a command with the invariant that what was fed is what was consumed; simulation over histories; C73 for the digest; C24 for the commands that are refused.

**C146.** Model: `M_datacard.v` (a client applet, not in /repo: PUT DATA and GET DATA) on `M_apdu.v`, `M_bertag.v`, `M_bertlv.v`. Specification: `S_DataCard.v` (the list of objects as they came; `whole` is the BER syntax, shown equivalent to `S_BER.length_octets`). Proof: simulation of the store by the list, with the value of the constructed TLV as the concatenation of the objects (tag bytes signed); C44 for find and C47 for append.

The statements are in `properties.jsonl`, the theorems of each property in
`MANIFEST.json`; the following table is generated from both.  "violated" means
that the code does not have the property: the full statement is kept in an
`S_*.v` file (or in the theorem), refuted (`_refuted`), and what does hold is
proved (`_partial`, or a theorem without suffix when that part of the property
holds as stated).

| | Property | Status | Theorems (file `P_<file>.v`) |
|---|---|---|---|
| C01 | makeShort is the big-endian two's-complement short | proved | util: makeShort |
| C02 | setShort/getShort round-trip and frame | proved | util: setShort_getShort |
| C03 | arrayCopy between distinct arrays copies exactly the requested range | proved | util: arrayCopy_distinct |
| C04 | Out-of-bounds accesses raise ArrayIndexOutOfBoundsException | proved | util: bounds_exact, no_IndexError, fill_effect |
| C05 | arrayCopy within one array behaves as if through a temporary | partial (violated) | full1: full_refuted; util: overlap_refuted, overlap_partial, overlap_right_exact |
| C06 | arrayCopy is atomic: on failure the destination is untouched | partial (violated) | full1: full_refuted; util: atomic_refuted, atomic_partial |
| C07 | arrayCompare is lexicographic comparison | proved | util: arrayCompare |
| C08 | Negative offsets are rejected | partial (violated) | arrayall: fill_partial, copy_partial, self_partial, self_unique, compare_partial, short_partial; full1: full_refuted; util: negative_refuted, negative_partial |
| C09 | arrayCopyNonAtomic behaves like arrayCopy, including its error | partial (violated) | full1: full_refuted; util: nonAtomic_refuted, nonAtomic_partial |
| C10 | signed(value, depth) is two's complement | proved | jcint: sanatize; util: signed |
| C11 | PIN try counter always within 0..tryLimit | proved | ownerpin: tries_in_range |
| C12 | A blocked PIN stays blocked | proved | ownerpin: blocked_stays_blocked |
| C13 | Every failed check on an unblocked PIN costs exactly one try | partial (violated) | full1: full_refuted; ownerpin: failed_check_refuted, failed_check_partial, guesses_partial |
| C14 | check accepts exactly the PIN that was set | partial (violated) | full1: full_refuted; ownerpin: check_exact_partial, check_str_partial, check_full_length_partial, accepts_wrong_pin_refuted, too_long_refuted, rejects_right_pin_refuted |
| C15 | update does not leave the PIN validated | partial (violated) | full1: full_refuted; ownerpin: update_validates_refuted, update_partial |
| C16 | The validated flag reflects the last deciding event | proved | ownerpin: validated_flag |
| C17 | reset and resetAndUnblock | proved | ownerpin: reset |
| C18 | AID construction, getBytes and equals agree | proved | aid: constructor, getBytes, equals, roundtrip |
| C19 | AID equality is an equivalence; RIDEquals and partialEquals compare prefixes | proved | aid: equality, eq_getBytes, prefixes |
| C20 | getPartialBytes copies the requested part of the AID | partial (violated) | aid: getPartialBytes_refuted, getPartialBytes_partial; full1: full_refuted |
| C21 | An AID object always holds 5 to 16 bytes | partial (violated) | aid: size_refuted, size_partial; full1: full_refuted |
| C22 | A new APDU exposes the header and starts in the initial state | proved | apdu: constructor |
| C23 | Short APDUs are decoded per ISO 7816-4 | proved | apdu: short |
| C24 | Extended APDUs are decoded per ISO 7816-4 | partial (violated) | apdu: case3E_refuted, le_refuted, extended_partial; full1: full_refuted |
| C25 | The receive loop delivers the whole command data in order | proved | apdu: receive_loop |
| C26 | Receive calls report a non-negative byte count | partial (violated) | apdu: case2S_refuted, counts_partial, copied_partial; full1: full_refuted |
| C27 | The response is the concatenation of what was sent | proved | apdu: response, bounds, setOutgoingAndSend |
| C28 | Calls out of order raise ILLEGAL_USE and change nothing | partial (violated) | apdu: second_length_refuted, send_early_refuted, sendBytesLong_refuted, order_partial; full1: full_refuted |
| C29 | No more bytes can be sent than announced | partial (violated) | apdu: oversend_refuted, limits_partial; full1: full_refuted |
| C30 | CLA queries are stable while a command is processed | partial (violated) | apdu: cla_refuted, cla_partial; full1: full_refuted |
| C31 | Malformed commands are refused with SW_WRONG_LENGTH | partial (violated) | apdu: six_bytes_refuted, too_short_refuted, short_partial, extended_partial; full1: full_refuted |
| C32 | BigNumber init/toBytes round-trip | proved | bignumber: roundtrip |
| C33 | BigNumber arithmetic is integer arithmetic | proved | bignumber: init, arithmetic, compareTo, toBytes |
| C34 | subtract never yields a negative number | partial (violated) | bignumber: refuted, partial; full1: full_refuted |
| C35 | Invalid BCD is rejected | partial (violated) | bignumber: refuted; full1: full_refuted |
| C36 | The maxBytes capacity is enforced | partial (violated) | bignumber: refuted, partial; full1: full_refuted |
| C37 | A failing BigNumber operation leaves the number unchanged | partial (violated) | bignumber: refuted, partial; full1: full_refuted |
| C38 | JCint setInt/getInt round-trip | partial (violated) | arrayall: setInt_any_partial, getInt_any_partial; full1: full_refuted; jcint: makeInt_partial, makeInt_refuted, makeInt4_partial, setInt, getInt_partial, roundtrip_partial, roundtrip_refuted |
| C39 | BER tag encode/decode round-trip | proved | bertag: encode, identifier, decode, roundtrip; tlvparse: any |
| C40 | BERTag.size is the encoded size | partial (violated) | bertag: refuted, partial; full1: full_refuted |
| C41 | Encoding a tag touches only its own bytes | partial (violated) | bertag: refuted, partial; full1: full_refuted |
| C42 | BER-TLV parsing | partial (violated) | bertlv: partial, high_tag_refuted, long_form_refuted, getLengthLen_partial; full1: full_refuted; tlvparse: length_exact_partial, exact_partial |
| C43 | BER-TLV serialisation inverts parsing | partial (violated) | bertlv: partial, refuted; full1: full_refuted; tlvexact: exact_partial |
| C44 | find returns the first child with the tag | partial (violated) | bertlv: partial, static_partial, refuted; full1: full_refuted; tlvfind: exact_partial, static_exact_partial, high_refuted |
| C45 | findNext resumes after the given occurrence | partial (violated) | bertlv: partial, refuted; full1: full_refuted; tlvnext: exact_partial |
| C46 | find terminates on every value | partial (violated) | bertlv: refuted, partial; full1: full_refuted; tlvterm: exact_partial, next_partial |
| C47 | append adds one child at the end | partial (violated) | bertlv: partial, static_partial, refuted, long_refuted; full1: full_refuted; tlvexact: exact_partial, high_tag_refuted |
| C48 | init from bytes initialises the object | partial (violated) | bertlv: refuted, partial; full1: full_refuted |
| C49 | The static findNext works on arrays | partial (violated) | bertlv: refuted, partial; full1: full_refuted; tlvlife: exact_partial |
| C50 | Tag kind mismatches are rejected | proved | bertag: kind_mismatch, getInstance_errors |
| C51 | replaceValue and getValue | partial (violated) | bertlv: partial, refuted; full1: full_refuted |
| C52 | DES decryption inverts encryption | proved | des: inverse |
| C53 | pyDes computes the DES of FIPS 46-3 | proved | des: fips, constructible |
| C54 | DES key parity bits are ignored | proved | des: parity |
| C55 | DES messages round-trip in ECB and CBC, with and without PKCS5 | proved | des: roundtrip |
| C56 | Triple DES round-trips and is EDE | proved | tdes: ede, constructible, degenerate, roundtrip, history |
| C57 | ECB is blockwise and CBC chains | proved | des: ecb_cbc, history |
| C58 | Cipher.doFinal round-trips through the Java Card API | proved | cipher: encrypt, roundtrip, constructible |
| C59 | Cipher objects are reusable and history independent | proved | cipher: history |
| C60 | Cipher.update processes data | partial (violated) | cipher: refuted, update_partial; full2: full_refuted |
| C61 | A failing Cipher.init leaves the cipher as it was | partial (violated) | cipher: refuted, partial; full2: full_refuted |
| C62 | Unaligned NOPAD input is refused with a CryptoException | partial (violated) | cipher: refuted; full2: full_refuted |
| C63 | Invalid PKCS5 padding is detected | partial (violated) | des: refuted, valid_partial; full2: full_refuted |
| C64 | Pad-character mode round-trips | partial (violated) | des: refuted; full2: full_refuted |
| C65 | DES keys round-trip and can be cleared | partial (violated) | full2: full_refuted; keys: roundtrip, clear_refuted, short_refuted |
| C66 | RSA keys become initialised exactly when both parts are set | proved | keys: private, public, unavailable, modulus_length |
| C67 | A cipher uses the key components last set | partial (violated) | full2: full_refuted; keys: refuted |
| C68 | The private key of a generated pair exposes the private exponent and the modulus | partial (violated) | full2: full_refuted; keys: refuted |
| C69 | PKCS#1 v1.5 unpadding inverts padding | proved | keys: roundtrip, total, lax |
| C70 | Number/array conversion of key material is lossless | partial (violated) | full2: full_refuted; keys: refuted, partial, getters_refuted |
| C71 | KeyBuilder returns a key of the requested type and size or raises | partial (violated) | full2: full_refuted; keys: partial, refuted |
| C72 | KeyPair generation | partial (violated) | full2: full_refuted; keys: refuses, generates, unsupported, refuted, kinds |
| C73 | MessageDigest digests the concatenation of its updates | proved | arrayall: any_offsets; system: C73, getInstance |
| C74 | MessageDigest range errors | partial (violated) | arrayall: update_partial; full2: full_refuted; system: refuted, partial |
| C75 | RandomData fills exactly the requested range | partial (violated) | arrayall: any_partial; full2: full_refuted; system: partial, refuted, getInstance |
| C76 | Dispatcher keeps services per phase in order and enforces its capacity | partial (violated) | full2: full_refuted; system: partial, refuted |
| C77 | Transactions roll back | partial (violated) | full2: full_refuted; system: refuted |
| C78 | Array factories | partial (violated) | full2: full_refuted; jcint: makeTransientIntArray; system: partial, refuted, unknown_type |
| C79 | DES complementation | proved | desx: complement, triple |
| C80 | Weak and semi-weak DES keys | proved | desx: weak, constructible |
| C81 | Encryption is a bijection on whole blocks | proved | desx: bijection, triple |
| C82 | A changed ciphertext block has a local effect | proved | desx: des, triple |
| C83 | Messages can be encrypted in pieces | proved | desx: des, triple, decrypt, decrypt_triple |
| C84 | Keying options of triple DES | proved | desx: two_keys, collapse |
| C85 | The setters of a des object determine its behaviour | proved | desset: settings, setters |
| C86 | des.setKey refuses keys that are not 8 bytes long | partial (violated) | desset: exact_partial, full_refuted |
| C87 | The setters of a triple_des object determine its behaviour | partial (violated) | desset: settings, no_iv, setters, rekey_partial, full_refuted |
| C88 | Raw RSA returns the number as size/8 bytes | partial (violated) | rsa: exact_partial, refuted, full_refuted |
| C89 | RSA decryption removes PKCS #1 padding | partial (violated) | rsa: refuted, full_refuted |
| C90 | A private key whose components were set can be used | partial (violated) | rsa: refuted, accepted, full_refuted |
| C91 | Errors of the RSA cipher | proved | rsa: init, errors |
| C92 | Cipher.getInstance by cipher and padding | partial (violated) | rsa: supported_partial, two_arguments, refuted, full_refuted |
| C93 | Signature.getInstance | partial (violated) | rsa: refuted, full_refuted |
| C94 | getCurrentAPDU is the APDU last created | partial (violated) | world: exact_partial, current_partial, full_refuted |
| C95 | getCLAChannel | partial (violated) | world: channel_partial, none, full_refuted |
| C96 | The answers of the test applet | proved | applet: every; world: base, unselected, abstract |
| C97 | getAvailableMemory with a buffer | partial (violated) | applet: one_partial; arrayall: any_partial; world: partial, errors_refuted, full_refuted |
| C98 | Nested TLVs are built, written, found and read back | partial (violated) | tree: build_partial, read_partial, roundtrip_partial, find_partial, full_refuted |
| C99 | Array operations can be split | proved | algebra: copy_split, fill_split, compare_split |
| C100 | Laws of arrayCopy, arrayFillNonAtomic and arrayCompare | proved | algebra: copy_compare, save_restore, order, fill_compare |
| C101 | Exception classes | partial (violated) | exc: hierarchy, throwIt_partial, reason, no_reason_refuted, full_refuted |
| C102 | A tag object holds what its last init stored | partial (violated) | tagobj: history, last_partial, new, kind_refuted, truncated_refuted, size_refuted, equal, full_refuted |
| C103 | Static BERTag functions, and tags are prefix-free | partial (violated) | tagstat: statics, size_refuted, truncated, prefix_free, unambiguous |
| C104 | A BigNumber is an integer register | proved | bigrun: history, observe |
| C105 | Converting between BCD and HEX loses nothing | proved | bigrun: write_read, convert, there_and_back |
| C106 | OwnerPIN is the reference PIN object on strings | proved | pinref: history, state |
| C107 | A PIN cannot be guessed with more than tryLimit attempts | proved | pinref: guesses, secrecy |
| C108 | The RSA example applet encrypts and decrypts | partial (violated) | rsaapplet: install, encrypt_partial, decrypt_refuted, errors, full_refuted |
| C109 | pyDes refuses text that is not ASCII | partial (violated) | desstr: des_call, des_history, new, tdes_history, mixed_refuted, full_refuted, stuck_refuted |
| C110 | getIV of a triple_des object returns bytes | partial (violated) | desstr: created_refuted, bytes_partial, full_refuted |
| C111 | encrypt and decrypt of pyDes return bytes | partial (violated) | desstr: des_types, tdes_types, full_refuted, roundtrip_partial, roundtrip_refuted |
| C112 | The padding arguments of encrypt and decrypt mean the padding setters | partial (violated) | despad: des_partial, clash_refuted, other_refuted, full_refuted, tdes_partial, tdes_clash_refuted |
| C113 | An APDU leaves the caller's command array alone | partial (violated) | apduheap: frame_partial, until_send_partial, refuted, full_refuted |
| C114 | APDU objects do not disturb each other | partial (violated) | apduheap: alone_partial, separate_partial, refuted, full_refuted |
| C115 | A TLV changes by calls on it only | partial (violated) | tlvheap: copies_partial, own_partial, view_partial, calls_partial, refuted, full_refuted |
| C116 | genKeyPair fills the keys of the pair | partial (violated) | keyheap: refuted, full_refuted, frame_partial, same_objects_partial, through_partial, view_partial |
| C117 | A CRT private key can be filled and read | partial (violated) | keyheap: refuted, full_refuted |
| C118 | Every method of the TLV package can be called as documented | partial (violated) | lookup: reached_partial, missing_refuted, full_refuted, static_on_object_refuted, static_both_ways_partial, override_partial |
| C119 | An APDU is a command-response exchange | proved | apduref: exchange |
| C120 | A cipher works with the key as it was at init | proved | session: init_fixes_key, later_key_calls |
| C121 | The class byte is decoded per ISO 7816-4 | partial (violated) | cla: partial, secure_refuted, full_refuted |
| C122 | Block sizes and protocol are those the APDU works with | proved | cla: blocks, protocol |
| C123 | The kind of sequence a command is makes no difference | partial (violated) | apdubytes: step_partial, receive_partial, refuted, frame_partial, full_refuted |
| C124 | A TLV object that was not initialised says so | partial (violated) | tlvlife: refuted, full_refuted, partial, init_partial |
| C125 | The constants have the values of the Java Card API | partial (violated) | consts: partial, full_refuted, distinct, choices, lengths, error_states |
| C126 | The class constants of BERTag name the tag classes | partial (violated) | consts: refuted, full_refuted, partial |
| C127 | The modules can be imported in any order | partial (violated) | imports: any_order_partial, same_partial, one_class_partial, installed_refuted, full_refuted |
| C128 | Every global name in a function has a value | partial (violated) | imports: exact_partial, refuted, full_refuted |
| C129 | The classes of the Java Card API can be imported from their packages | partial (violated) | imports: exact_partial, full_refuted |
| C130 | The methods of the Java Card API can be called with their arguments | partial (violated) | classes: objects_partial, statics_partial, ctors_partial, refuted, full_refuted |
| C131 | Every attribute used inside the library exists | partial (violated) | classes: class_attributes_partial, self_partial, full_refuted |
| C132 | A byte may be stored signed or unsigned | partial (violated) | signed: util_partial, aid_partial, aid_refuted, compare_refuted, pin_refuted, int_refuted, big_partial, apdu_partial, tag_partial, tlv_partial, tlv_refuted, des_partial, digest_partial, rsa_refuted, full_refuted |
| C133 | Input and output may be the same array | proved | buf: des, rsa, digest, append, inplace |
| C134 | selectingApplet tells whether the applet is being selected | partial (violated) | applet: partial, refuted, full_refuted, defaults |
| C135 | Errors reach the applet as exceptions of the Java Card API | partial (violated) | errors: exact_partial, refuted, full_refuted |
| C136 | A call that fails changes nothing | partial (violated) | atomic: exact_partial, refuted, full_refuted |
| C137 | Byte arrays stay byte arrays | partial (violated) | jbytes: exact_partial, refuted, full_refuted |
| C138 | A call reads the bytes it is given, and no others | partial (violated) | local: exact_partial, full_refuted, tlv_partial |
| C139 | Calls return the number the API defines | partial (violated) | return: exact_partial, full_refuted |
| C140 | Returned numbers fit the Java type | partial (violated) | javatype: exact_partial, full_refuted |
| C141 | A PIN keeps a secret | partial (violated) | pincard: exact_partial, secret, blocked, wrong_pin_refuted, too_long_refuted, unreset_refuted, full_refuted |
| C142 | A card encrypts and decrypts as FIPS 46-3 says | partial (violated) | descard: exact_partial, agrees_partial, roundtrip, padding_refuted, full_refuted |
| C143 | A purse counts money | partial (violated) | purse: exact_partial, guarded, conserved, overdraft_refuted, capacity_refuted, bcd_refuted, full_refuted |
| C144 | A card opens to those who answer its challenge | partial (violated) | chal: exact_partial, fixed, sound, once, refused_refuted, full_refuted |
| C145 | A card digests what it is sent, however it is cut | partial (violated) | hashcard: exact_partial, message_partial, extended_refuted, phantom_refuted, full_refuted |
| C146 | A card gives back the data objects it was given | partial (violated) | datacard: exact_partial, whole, first_partial, long_refuted, malformed_refuted, full_refuted |

No property was left out as inexpressible.

## 4. Which code is modelled, and which is not

| Source file | Model | Modelled | Not modelled, or simplified |
|---|---|---|---|
| class statements of all files | M_classes.v | methods with their kind and arity, bases, attributes read from and assigned to self | assignments to attributes of other objects |
| import statements and top-level code of all files | M_import.v, M_imptab.v | top-level definitions, assignments and imports as tables; global names of functions | values computed at import time other than those of M_consts.v; attributes of objects other than modules |
| pythoncard/utils.py | M_utils.v, M_lookup.v | everything | data descriptors and __getattr__ in application subclasses |
| pythoncard/framework/util.py | M_util.v | everything |  |
| pythoncard/framework/jcsystem.py | M_system.v, M_util.v | transactions (they do nothing), array factories, getAvailableMemory | warnings; requestObjectDeletion (empty body) |
| pythoncard/framework/ownerpin.py | M_ownerpin.v | everything |  |
| pythoncard/framework/aid.py | M_aid.v | everything |  |
| pythoncard/framework/apdu.py | M_apdu.v, M_world.v, M_apduheap.v, M_cla.v, M_apdubytes.v | constructor, all methods, the global _current; commands that are lists of ints or bytes objects |  |
| pythoncard/framework/applet.py | M_world.v, M_applet.v | everything | the warning of register |
| pythoncard/framework/__init__.py, python/*.py, */__init__.py | Py.v, M_exc.v | exception classes as constructors of `exn` with their reason (Py.v); the classes themselves, their hierarchy, throwIt and the reason accessors (M_exc.v) | - |
| pythoncard/framework/ISO7816.py and the constants of all classes | M_consts.v | everything |  |
| pythoncard/framework/service/dispatcher.py | M_system.v | everything | the other files of service/ contain empty classes |
| pythoncard/security/key.py | M_key.v | everything | negative numbers in _longToArray (RSA numbers are not negative) |
| pythoncard/security/secretkey.py | M_key.v | everything |  |
| pythoncard/security/publickey.py, privatekey.py | M_key.v, M_keyheap.v | PyCryptoRSAPublicKey, PyCryptoRSAPrivateKey with their decorators, PyCryptoRSAPrivateCrtKey | pycrypto is a parameter |
| pythoncard/security/keybuilder.py | M_key.v | buildKey |  |
| pythoncard/security/keypair.py | M_key.v, M_keyheap.v | everything; the identity of the key objects in M_keyheap.v |  |
| pythoncard/security/messagedigest.py, random.py | M_digest.v | everything | hashlib and os.urandom are parameters |
| pythoncard/security/signature.py | M_signature.v | getInstance | the other methods (unreachable: no instance can be obtained; empty bodies) |
| pythoncardx/crypto/cipher.py | M_cipher.v, M_session.v | everything | print |
| pythoncardx/external/memory.py | M_system.v | getMemoryAccessInstance |  |
| pythoncardx/framework/math.py | M_bignumber.v | everything |  |
| pythoncardx/framework/util/intx.py | M_jcint.v | everything | warnings |
| pythoncardx/framework/tlv/bertag.py, bertlv.py | M_bertag.v, M_bertlv.v, M_tagobj.v, M_tree.v, M_tlvheap.v, M_lookup.v | everything | sharing of value lists between TLVs (there is none: init slices) |
| pyDes/pyDes.py | M_des.v, M_desx.v, M_desstr.v | des and triple_des under Python 3 with bytes (M_des.v) and str arguments (M_desstr.v) | the Python 2 branches; the example code under `__main__` |
| test/testApplet.py | M_world.v | BaseApplet.process, choice1 and the card answering a command | the unittest classes |
| test/AppletRSA2048.py | M_rsaapplet.v | everything | register (only warns); the object identity of keys |
| test/tlvtag.py | T_tests.v | Tag, TLV (values of at most 127 cells), sanitycheck | longer values |
| test/ (other files), pyDes/test_pydes.py | T_tests.v | the assertions, run on the model as closed examples (tests of the model, not proofs; no property rests on them) | tests needing the real pycrypto or hashlib, isinstance tests, testImport, testMemory |
| setup.py | M_imptab.v (lib_installed) | which packages are installed | the rest |

## 5. Trusted base

* Coq 8.16.1's kernel, including its virtual machine (`vm_compute` is used for
  closed computations such as comparing DES tables).  `native_compute` is not
  used.
* `Print Assumptions` is run in the `P_*.v` files after every theorem, and was run
  on each of the 518 theorems of `MANIFEST.json`: the answer is "Closed under the
  global context" for every one of them.  No theorem depends on an axiom, neither
  of ours nor of a library.  (Loading `ssreflect`-based parts of the standard
  library puts seven declarations `Coq.ssr.ssrunder.Under_rel.*` in the
  environment; no theorem uses them.)
* The reading of the Python source recorded in the `M_*.v` files, the Python
  semantics of `Py.v` and the specifications `S_*.v` are trusted: Coq does not
  see the Python code.  Section 4 says what was left out.
* No `Admitted`, axiom, parameter, functor, module type or disabled kernel check
  is used.

## 6. Mutation testing

`seeded/LOG.jsonl` records, one line each, edits of the model as realistic bugs,
made in a scratch copy: the definition, the edit, the claim it breaks, the
theorems that failed, and those added or tightened when an edit survived.
