# A Rocq model of liboprf: design

The properties are listed in `properties.jsonl` (C01, C02, ...). This file says what
is modelled, how each property is stated and proved, and what is trusted.

## 1. Conventions of the model

* Host: little endian, `int` 32 bit, `size_t` 64 bit (the platform the project is built on).
* Bytes are Coq's `byte`; buffers are `list byte`. Fixed width arithmetic is written out
  (`mod 2^8`, `2^16`, `2^32`, `2^64`).
* A 32-byte scalar buffer is represented by the integer whose little endian encoding it
  holds (`Z`, range [0,2^256)); `le_bytes 32` / `of_le` convert at the wire.
* Undefined behaviour (out-of-bounds access, NULL or dangling pointer, non-terminating
  loop) is a distinct outcome `UB`, never a default value.
* Loops over buffers are `loopM` over index lists; an early `return` inside a loop is the
  outcome `Return` with the code.
* Random values, clock readings, and the result of `sodium_mlock` are arguments (records
  `env`, `penv`, `sched`), so theorems quantify over them.
* The group order L is the concrete number 2^252+27742317777372353535851937790883648493;
  its primality is proved in Coq (Pocklington certificates), not assumed.

## 2. External libraries

libsodium is outside the model. It enters as explicit arguments of the theorems, never as axioms:

* `ristretto` (record): carrier of the group, addition, negation, identity, base point,
  32-byte encoder/decoder, hash map. `ristretto_ok R` : the group is abelian, every
  element is killed by L, is a multiple of the base point, the base is not the identity,
  encodings are 32 bytes, canonical, and the identity is 32 zero bytes.
* The libsodium entry points the code calls are *defined* from this record in
  `Sodium.v`, with their documented quirks (bit 255 cleared by scalarmult, -1 on an identity
  result, `add` not writing on failure, 256-bit carry dropped by scalar_add, ...).
* SHA-512, BLAKE2b: arbitrary functions from byte strings to 64/32-byte strings. No
  collision resistance is assumed; statements end in "or a collision is exhibited".
* Ed25519 signatures: arbitrary `sign`/`verify`/`pk_of`, with correctness
  (`verify (pk_of sk) m (sign sk m)`) where completeness needs it. No unforgeability is
  assumed: a conclusion says "this signature verifies", not "this peer signed".
* Noise XK sessions as tp-dkg.c uses them: an abstract session type and the operations the code
  uses, with correctness (handshake completes, decrypt after encrypt) where completeness needs it.
  `XkNoise.v` makes an instance of it from the model of the Noise library and proves the laws, so
  nothing about the library is assumed.
* X25519, ChaCha20-Poly1305 and BLAKE2b as the Noise library calls them (`xprims`): agreement of
  Diffie-Hellman, decryption after encryption, lengths. No secrecy is assumed.

For each of these records a concrete instance is constructed (`toyR`, `toyC`, ...), so that the
hypotheses are satisfiable; it also serves for the concrete witnesses (`vm_compute`).

## 3. Files (rocq/theories)

| file | content |
|---|---|
| `Bytes.v`, `Res.v`, `Mem.v` | byte strings, endian codecs; the outcome monad with UB; bounds-checked buffers and loops |
| `Prime.v`, `PrimeL.v` | Fermat, Pocklington, primality of L |
| `Fq.v`, `Poly.v`, `LinSolve.v` | the field Z/L, polynomials, root bound, interpolation, linear systems |
| `Sodium.v` | the libsodium interface (definitions + `ristretto_ok`) and the instance |
| `OprfModel.v` | src/oprf.c |
| `ToprfModel.v` | src/toprf.c |
| `DkgModel.v` | src/dkg.c |
| `LockModel.v` | memory locks and wiping in src/oprf.c, src/dkg.c, src/toprf.c |
| `MpmultModel.v` | src/mpmult.c |
| `VspsModel.v` | src/tests/mpmult.c: the degree check of committed polynomials (`_vsps`, `vsps_check`) |
| `WireModel.v`, `TpCrypto.v`, `TpModel.v`, `PeerModel.v`, `CheaterModel.v` | src/tp-dkg.c |
| `PyModel.v` | python/pyoprf/__init__.py |
| `PyReportModel.v` | the texts of the cheater reports (src/tp-dkg.c:1669-1760), tpdkg_get_cheaters of python/pyoprf/__init__.py |
| `MuxModel.v` | python/pyoprf/multiplexer.py |
| `XkModel.v` | src/noise_xk/src/XK.c, src/noise_xk/src/Noise_XK.c |
| `XkMemModel.v` | allocation and freeing in src/noise_xk/src/XK.c |
| `XkNoise.v` | the Noise calls of src/tp-dkg.c, as an instance of the interface in `TpCrypto.v` |
| `PyNoise.v` | python/pyoprf/noisexk.py |
| `PyRunModel.v` | python/examples/tpdkg_test.py |
| `PyTdhModel.v` | python/examples/3hashtdh.py |
| `AttackModel.v` | misc/attack.c |
| `TpRun.v` | the message exchange of src/tests/tp-dkg.c (the documented way to drive the API) |
| `OprfSpec.v`, `ToprfSpec.v`, `SecrecySpec.v`, `DkgSpec.v`, `WireSpec.v`, `TpSpec.v`, `BlameSpec.v`, `SafeSpec.v`, `RunSpec.v`, `ClearSpec.v`, `ReportSpec.v`, `MissedSpec.v`, `AnonSpec.v`, `LockSpec.v`, `GoodSpec.v`, `FairSpec.v`, `RevealSpec.v`, `UseSpec.v`, `MulSpec.v`, `UpdateSpec.v`, `MobileSpec.v`, `ShortSpec.v`, `DeviateSpec.v`, `SelectSpec.v`, `MisreportSpec.v`, `AskSpec.v`, `MixSpec.v`, `MaskSpec.v`, `PySpec.v`, `MuxSpec.v`, `MuxGroupSpec.v`, `XkSpec.v` (with the Noise framework), `XkStatusSpec.v`, `XkMemSpec.v`, `PyNoiseSpec.v`, `PyRunSpec.v`, `PyTdhSpec.v`, `JoinSpec.v`, `KeySpec.v`, `MitmSpec.v`, `NetSpec.v`, `OutsiderSpec.v`, `VspsSpec.v`, `XkBindSpec.v` | specifications, independent of the models' helpers |
| `*Proofs.v`, `Tp*.v`, `Peer*.v`, `Honest*.v`, `Cleared.v`, `Anon*.v`, `Good.v`, `Fair*.v`, `Reveal.v`, `Use.v`, `GoodUse.v`, `MulUse.v`, `MuxGroup.v`, `Py*.v`, `Xk*.v` | proofs |
| `*Examples.v` | concrete cases and refutation witnesses |
| `Properties*.v` | the property theorems, `exact`, examples, `Print Assumptions` |

## 4. Properties

| id | property | what is modelled and how it is proved |
|---|---|---|
| C01 | OPRF round trip is correct and independent of the blind | Blind/Evaluate/Unblind/Finalize as functions of (input, random scalar) (`OprfModel`); group algebra with r*r^-1=1 mod L |
| C02 | Blinding perfectly hides the input | existence and uniqueness of the blind that maps one input to another's blinded element: the group is cyclic of prime order |
| C03 | expand_message_xmd implements RFC 9380 | `expand_message_xmd` with its 8-bit counters against the RFC text (`OprfSpec`); symbolic bytes, all lengths |
| C04 | Finalize hashes an unambiguous encoding | injectivity of the length-prefixed encoding |
| C05 | Every byte of the input counts | false for lengths >= 256 (8-bit length parameter): witness, plus the exact characterisation (only the length mod 256 counts) |
| C06 | Unblind accepts only genuine group elements and usable blinds | iff characterisation of success from the decoder laws |
| C07 | create_shares evaluates a polynomial of degree below the threshold | `create_shares` loop by induction on n; against plain integer polynomial evaluation (`ToprfSpec`) |
| C08 | Any threshold-many distinct shares reconstruct the secret | Lagrange interpolation over Z/L (`Poly`) |
| C09 | Fewer than threshold shares reveal nothing about the secret | existence and uniqueness of the interpolating polynomial; count of consistent polynomials |
| C10 | Threshold multiplication computes k*alpha from any quorum in any order | interpolation in the exponent |
| C11 | Combining is independent of the order in which responses arrive | sum over a permuted list; addition is commutative, invalid elements skipped |
| C12 | Precomputed-quorum evaluation combines to k*alpha | as C10 for the two-step evaluation |
| C13 | Combining rejects responses that are not group elements | false for toprf_thresholdcombine: witness; true for toprf_thresholdmult |
| C14 | 3HashTDH gives the same result as the plain threshold OPRF | linearity; the zero sharing cancels |
| C15 | Share generation stays inside the buffers and terminates for every n | loop with 8-bit counter modelled with wrap-around; n=255 is undefined behaviour; n<=254 proved |
| C16 | coeff is the Lagrange coefficient at zero | induction over the list of indices |
| C17 | Honest shares always verify | Feldman completeness, in the group |
| C18 | A verified share is the committed polynomial's value | false for values with bit 255 set: witness; proved for canonical shares |
| C19 | Verification reports exactly the cheating dealers | false with undecodable commitments: witness; exact contents of the list proved |
| C20 | DKG yields one consistent sharing of the sum of the dealers' secrets | sum of the dealers' polynomials |
| C21 | The inverted Vandermonde matrix is the inverse | LU invariant of scaled-pivot elimination (`LinSolve`); pivots non-zero by the root bound |
| C22 | Multi-party multiplication shares the product | interpolation of the degree 2t-2 product |
| C23 | MPC multiplication refuses unusable parameters | case analysis over all parameters |
| C24 | A sent protocol message is accepted by its addressee | codec round trips for send_msg/recv_msg on buffers (`WireModel`) |
| C25 | Acceptance implies every header check | case analysis over recv_msg, all byte strings |
| C26 | Message bodies are authenticated | false: only the header is signed; witness, and exact coverage of the signature |
| C27 | Accepted timestamps of a sender never go backwards | invariant over histories of receive events (`WireHistory`) |
| C28 | A rejected message leaves the receiver's state unchanged | false: the time stamp is recorded before the signature check; witness, and exact behaviour |
| C29 | Trusted party and peers agree on all buffer sizes | symbolic arithmetic over the size functions of both sides in all steps (`TpSizes`) |
| C30 | The protocol state machines only move forward and finish | step function of tp_next/peer_next on all states; induction over call histories (`TpControl`) |
| C31 | An error ends the protocol | false in step 6 of the trusted party; witness, and proof for all other steps and for peers |
| C32 | The trusted party is memory safe against malicious peers | every read and write of `TpModel` is bounds checked and yields UB; a reachable-state invariant makes every call defined (`TpSafe`); the two causes of UB are exhibited |
| C33 | A peer is memory safe against malicious peers and a malicious trusted party | as C32 for `PeerModel`, session pointers as slots Uninit/Null/Live/Freed (`PeerSafe`); four histories with UB exhibited |
| C34 | The cheater list never overflows and is only extended | invariant over all calls (`TpFrame`, `TpControl`) |
| C35 | Recorded complaints are well formed and bounded | loop invariant of the complaint parser (`TpComplaints`) |
| C36 | Trusted party and peers agree on the complaints | the same parser on both sides, on the same broadcast (`TpAgree`) |
| C37 | Complaint resolution blames the guilty party | exact decision of step 18 for each complaint (`BlameSpec`, `TpBlame`); witness for the unanswered ones |
| C38 | Cheater reports name the recorded peer | set of entries any history can record, and tpdkg_cheater_msg on each (`TpReports`); witness for unnamed ones |
| C39 | Success implies that all parties saw the same broadcasts | transcripts as folds over the broadcasts; digest equality or an explicit collision (`TpAgree`) |
| C40 | The transcript encoding is unambiguous | injectivity of the length-prefixed encoding |
| C41 | Peer-to-peer messages are routed unchanged to their addressee | slices of the relay steps (`TpContent`) |
| C42 | A peer outputs a key share only after the trusted party's final OK | invariant over peer histories |
| C43 | Any complaint aborts the key generation everywhere | false for unaccused peers: witness; proved for the trusted party and the accused |
| C44 | An honest run succeeds and produces a usable shared key | the driver loop of src/tests/tp-dkg.c (`TpRun`, `RunSpec`); all messages and states of the run in closed form (`HonestState`), one lemma per step (`HonestTp`, `HonestPeer`), composed over the rounds (`HonestRun`), hypotheses met (`HonestWorld`) |
| C45 | Trusted party and peers accept the same parameters | start_tp/start_peer on all parameters (`TpStart`); thresholds 0 and 1 as witness |
| C46 | Trusted party success means every peer confirmed | contents of step 22 (`TpContent`); witness for a signed message that does not say OK |
| C47 | A malicious dealer cannot suppress complaints about bad shares | exact list of dealers a peer names (`PeerContent`); witness for suppression |
| C48 | Dispatch slices are in bounds and cover the output | arithmetic over tp_peer_msg |
| C49 | Logging does not influence the protocol | relation between runs with and without log (`TpLog`); NULL stream as UB |
| C50 | A recorded cheater excludes success | invariant over histories |
| C51 | Session keys are vouched for by the long-term keys | invariant: every key in the table came with a signature of the long-term key (`TpContent`) |
| C52 | Everybody uses the same session keys | the trusted party's broadcast against the peer's table (`TpAgree`) |
| C53 | Everybody uses the same commitments | the trusted party's broadcast against the peer's table (`TpAgree`) |
| C54 | Python: shares reconstruct the secret | Python wrapper over the model of toprf_create_shares (`PyModel`), with integer truncation and the undefined return value explicit; reduces to C07, C08, C15 |
| C55 | Python: the OPRF of RFC 9497 | wrapper with the truncated lengths; reduces to C01, C04 |
| C56 | Python: no call is undefined | undefined behaviour is an outcome `Bad` of the wrappers; case analysis of the C models |
| C57 | Python: dealers that cheated are returned | wrapper over dkg_verify_commitments; reduces to C19 |
| C58 | Python: sessions of the distributed key generation | wrappers over the session functions, histories of Python calls mapped to histories of C calls (`PySession`); reduces to C32, C33 |
| C59 | Multiplexer: answers belong to their peers | streams as lists of pieces, select and pending as arguments (`MuxModel`); invariant per peer over the loop |
| C60 | Multiplexer: enough answers | same model; counting the entries, and a simulation for the returning case |
| C61 | Python: threshold evaluation equals evaluation | wrappers; reduces to C10, C12, C14 |
| C62 | Python: updating the key | wrappers; algebra in the group |
| C63 | Python: distributed key generation | wrappers; reduces to C17, C20 |
| C64 | Multiplexer: connections | state machine of one connection; invariants over histories |
| C65 | Noise: conformance | the Noise framework (symmetric state, tokens, pattern XK) as an executable specification (`XkSpec`), a simulation between library sessions and specification sessions (`XkProofs`) |
| C66 | Noise: honest handshake and channel | symbolic execution of the three messages, then an invariant over the two queues (`XkChannel`, `XkNonces`) |
| C67 | Noise: identity of the peer | invariant over histories of a session (`XkSession`) |
| C68 | Noise: failed requests | case analysis of every request in every reachable state; the out-of-turn send as witness |
| C69 | Noise: nonces and damaged messages | invariant over histories (`XkNonces`); failed requests leave the state unchanged |
| C70 | Noise: registry of peers | invariant relating the linked list to the history (`XkRegistry`) |
| C71 | Noise: stored secrets | AEAD correctness (`XkRegistry`) |
| C72 | Noise: lengths and security levels | invariant: stage of the state = number of successful requests (`XkSession`) |
| C73 | The DKG over the shipped Noise library | instance of the channel interface of `TpCrypto` from the Noise model; every law proved from C66 and C70 and invariants of devices (`XkNoise`); then C44 |
| C74 | Python: Noise sessions deliver | devices made from the arguments meet the hypotheses of C66; induction over the schedule with the states of both sessions (`PyNoiseProofs`); witnesses with toy primitives |
| C75 | Python: Noise failures raise | case analysis of every call; a session pointer stays valid (`PyNoiseUse`); witnesses |
| C76 | Python: a Noise responder knows its peer | translation of the calls to requests to the library, C67, invariant of the identifiers in the registry (`PyNoiseUse`) |
| C77 | A falsely accused peer is not blamed | what a peer sends follows from its history (`PeerAnswer`), the loops of the judging step over entries whose keys all decrypt to shares that verify (`TpClear`), joined in `Cleared` |
| C78 | A peer's long-term key is used once | step relation on the key, induction over calls (`PeerKey`) |
| C79 | A cheater report says what happened | truth conditions of the texts in `ReportSpec`; for every entry an invariant of the loop that makes it (`TpTruth`), then induction over calls; witnesses for the refutations |
| C80 | A key generation that ends well leaves honest peers with shares of one key | one slot of a peer's session arrays followed through the six steps of the Noise handshake with itself (`PeerSelf`), what the trusted party relays and broadcasts (C41, C52, C53), no complaint was recorded (C35, C36, C49), then Feldman consistency (C19, C20) and the linear algebra of the sum polynomial (`Good`); two attacks as complete runs over the toy primitives |
| C81 | Generated keys compute the OPRF | the sum of the dealt polynomials is a polynomial as toprf_create_shares draws it (`Use`), hence the shares of C44 and C80 are members of one sharing and C01, C10, C12, C14 apply (`GoodUse`) |
| C82 | A key generation through the Python bindings gives every peer a share of one key | the rounds of the honest run (C44) replayed with the calls of the bindings, whose size checks pass because the library's own do (C29); shares by C81 (`PyRun`) |
| C83 | A server that answers with a known key makes the output a plain hash of the input, and nothing tells the client | the model of the program composed of the C functions; C01 for the output, injectivity of the encoding (C04) for the converse (`Attack`) |
| C84 | The 3hashTDH example program: masked answers combine to the evaluation with the key itself | the linear algebra of C14 with an arbitrary common point (`masked_quorum` in `ToprfProofs`), lifted to byte strings (`PyTdh`) |
| C85 | A peer that follows the protocol is blamed only for a complaint that was not answered | for each call of the trusted party, what the peer wrote is read at its place and passes every check (`FairTp`, `FairPeer`: what an honest peer sends, in which state), so the call adds no entry about it; in the last call the keys it reveals are those of its sessions and open shares on its polynomial, so only entries about its own complaints are left; a complaint was made because the share the peer opened with its session key did not match the commitments both sides hold, so the trusted party can find it right only under another key with the same authenticator (`Fair`) |
| C86 | Masked answers tell nothing but the result, and a mask belongs to one session | the answer by computation; P is a multiple of the mask point, so a change of the sharing of the key is undone by the same multiple of it in the sharing of zero; uniqueness by C09 for the secret 0 (`Secrecy`) |
| C87 | Fewer than t of the shares handed out tell nothing, and commitments fix the polynomial | C09 for the polynomials of `dkg_start` and `mpc_mul_start`; the base point has order L (`Secrecy`) |
| C88 | A peer gives away the key of a session only to answer a complaint | the complaints a peer has noted in call seven are those of the messages in its input, each once (`Reveal`, an invariant of the loop over them); the answer is built from the noted complaints that name the peer and the sessions of call five, which no call in between changes |
| C89 | Python: the list of cheaters | every text is plain ASCII of at most 120 bytes (`PyReports`), so neither snprintf nor the search for the final 0 byte cuts it; the peers by the invariant of C37 on the recorded cheaters |
| C90 | The product of two shared keys is a shared key | the polynomial of C22 read as the input of `create_shares`, then C81's lemma that every created sharing computes the OPRF (`MulUse`); for generated keys the sharings of C81 |
| C91 | Noise: what a session says about itself | the handshake step counts the successful requests; the flag of the initiator is set exactly when its nonce for reading has moved (`XkStatus`) |
| C92 | Python: a conversation with all peers | induction over the lists of peers and of rounds; gather changes neither what was sent nor the sockets (`MuxGroup`), C59 for the answers |
| C93 | Every violation is reported | for every step an invariant of its loop: each message looked at so far is accepted or named by a new entry (`TpMissed`), reusing the loops of C79; complaints: each one looked at is in the list or named; the resolution from C37's analysis of one accused peer |
| C94 | The holders of the shares stay anonymous to each other | every handler of the trusted party but `tp_step4` commutes with replacing the long-term keys (`Anon`: one lemma per loop body, `loopM_map` for the loops); `tp_step4` reads them only to verify; after its first call a peer has erased the key, so the states coincide (`AnonSession`); the driver loop is then followed round by round |
| C95 | Secrets are locked in memory while used, and wiped | `LockModel` repeats the functions with the list of events at their temporaries and `C95_same_functions` proves that their results are those of the main model; `events_shape` classifies all event lists, then an invariant along the list (`safe_from`) for the locks and a fold for the contents |
| C96 | The Noise library frees its memory once, completely, and wipes keys | `XkMemModel` runs the calls of `XkModel` together with a heap of labelled blocks (each malloc, free and dereference of XK.c); ownership lists (`owns`) with a weakest precondition per call (`XkMemProofs`), then an invariant of the whole program (`XkMemRun.Inv`: the live blocks are a permutation of the blocks of the objects; addresses of freed devices are not used again) |
| C97 | Wrong and repeated responses do not pass for right ones | the result is the sum of the weighted responses (`ToprfProofs.thresholdmult_spec`); a weight is never 0 (C16) and the group has prime order, so one changed summand changes the sum and one summand can be solved for (`TamperProofs`) |
| C98 | No peer's contribution to a generated key can be cancelled | C80's matrix of dealt polynomials for both sessions: commitments determine polynomials, so the matrices differ in one row and the sums of the constant terms by the difference of that row's (`KeyProofs`); the handlers of the steps before the commitments do not read the polynomial |
| C99 | Key generation over a hostile network | each call that returns 0 accepted, at the place where C80's proof needs a message, one signed under the key of its author, with number and addressee fixed (C50-C56, `Net.self7` etc.); so it is the message the author wrote (`unforged_linked`), and the proof of C80 goes through (`Good.linked` collects what it needs of the network) |
| C100 | Keys handed out by the trusted party | a loop over the broadcast next to the same loop over the forged one (`Mitm.loop_beside`): the header checks see the same bytes, the entries verify under the keys they carry; the rest from the chain law of the Noise sessions (`ok_nz_chain`) along the first five calls of the peer, and interpolation (`dkg_reconstruct_spec`) |
| C101 | Nobody on the network ends up with the generated key | `Relay` is the program of the relay; the states of all parties in the disturbed session are those of undisturbed sessions in which each peer alone is real and the relay plays the others (one `world` of C44's proof for each peer, one for the trusted party), so each round follows from the lemmas of C44 applied to different worlds (`RelayProofs`); the digest part composes C39's two theorems |
| C102 | Commitments to a polynomial pass the degree check | the loop in logarithms (`Vsps.loop_log`), the weights as polynomials in the random point that are 1 at one position and 0 at the others (from C21), uniqueness of interpolation; for the refutation the two 2x2 inverses are computed in the field |
| C103 | Which sessions a peer joins | C25 turned into an exact description of `start_peer` (`Join.joined`, `Join.join_announced`): the fields read from the message are the parts of a signed announcement; the replay statements follow since a message determines its time stamp; that changed numbers are noticed is `Net.numbers_agree`: the length of the key broadcast gives n, that of the commitments t, and lengths are in the signed headers |
| C104 | Noise: the hash names the handshake | an invariant of sessions over all histories (`XkBind.inv`): the hash is the chain over the exchanged messages and the keys follow from the Diffie-Hellman values, whose arguments are read off the messages; equal chains of equal length are equal or collide (`chain_inj`); equal messages give equal Diffie-Hellman values |
| C105 | A shared key is changed | induction over the history, each step by C90; the inverse of a Vandermonde matrix is unique (`Update.inverted_unique`), so what the memory held does not matter; what a client keeps is the key times the hash of the input (C10, C12, C14), and scalar multiplications compose |
| C106 | Taking other servers after each update does not help | the first deployment by C09; each update by a simulation step (`Mobile.same_update`): a dealer that is taken deals the same, every other dealer has coefficients that give the taken recipients the same shares (C87); what is collected and so the new shares of the taken servers are then the same |
| C107 | A multiplication by too few servers is noticed | the result interpolates the product of the two polynomials at the dealers (`Short.short_poly`); if its value at 0 were the product too, the difference would have 2t-1 roots and be zero, but its highest coefficient is the product of two coefficients that are not 0 (`Short.one_short_wrong`) |
| C108 | A dealer that deals something else is noticed | the result interpolates whatever is dealt (`Deviate.dealt_poly`); the polynomial that is 1 at the deviating dealer and 0 at the others is not 0 at 0, else it had too many roots (`Deviate.weight`), so what is added reaches the key with a factor that is not 0 |
| C109 | All quorums hold the same key after an update | next to the update there is the honest one, and they differ at one server, by a factor that is not 0 (`Select.beside`, from `Deviate.weight`); a quorum interpolates its shares, and the same lemma gives the weight of that server in the quorum (`Select.quorum_key`) |
| C110 | A wrong report of delta is noticed | dkg_reconstruct interpolates what is reported; the weight of one share is not 0 and depends on the numbers only (`Misreport.misreported_key`, from `Deviate.weight`); multiplication of a point that is not the identity by scalars is injective (`Misreport.client_lost`) |
| C111 | A client computes with the key of the servers it asked | any shares with different numbers lie on a polynomial with one coefficient for each (`Ask.some_poly`); the three ways of asking and dkg_reconstruct all give its value at 0 (`thresholdmult_correct`, `combine_correct`, `Ask.masked_any`, `dkg_reconstruct_spec`) |
| C112 | Answers of different sessions do not combine | the result is the sum of the weighted answers (`Mix.weighted`); the masks cancel but for the weight and the share of 0 of the one server times the difference of the two masks, and neither factor is 0 (`coeff_neq_0`; `Mix.tdh_mask_used`: a server whose share of 0 is 0 returns an error) |
| C113 | Masks disappear exactly if they are shares of 0 | the result is the sum of the weighted answers (`Mix.weighted`), which splits into two sums; both kinds of shares lie on polynomials (`Ask.some_poly`), and each sum is the value of one of them at 0 (`coeff_interpolate`), as is what dkg_reconstruct gives |

## 5. What is modelled and what is not

Modelled, function by function: src/oprf.c, src/toprf.c, src/dkg.c, src/mpmult.c, and of
src/tp-dkg.c all functions that affect the protocol (message framing, Noise wrappers, all
handlers of the trusted party and of the peer, the size functions, tpdkg_tp_next,
tpdkg_peer_next, tpdkg_peer_free, tpdkg_start_tp, tpdkg_start_peer, the set_bufs functions,
tpdkg_recv_err and the decision part of tpdkg_cheater_msg), the driver loop of
src/tests/tp-dkg.c, the degree check in src/tests/mpmult.c, and the Python bindings python/pyoprf/__init__.py,
python/pyoprf/noisexk.py and python/pyoprf/multiplexer.py,
and the programs python/examples/tpdkg_test.py, python/examples/3hashtdh.py and misc/attack.c (ctypes' integer conversions, byte string terminators, and the
places where the bindings ignore or misread return values are explicit). Of the Noise library
(src/noise_xk, generated code) the symmetric operations, devices, registries, stored secrets,
sessions, reading, writing, levels, lengths, and the allocation and freeing of all objects are modelled.

Not modelled: the layout of the structures the bindings declare (compared
with the C headers by hand); sockets and TLS beyond what they deliver; the text printed to the log (only whether the stream is used), the wording of
error messages other than the cheater reports, src/utils.c (dump and debug output); of src/noise_xk failing allocations, the entry points with given ephemeral keys (tests only)
and the unused pre-shared key function; timing and other side channels, copies of secrets made by the compiler or by libsodium; memory locks and wiping outside the
functions of `LockModel.v` (elsewhere `sodium_mlock` is only its success or failure). The allocation failures of variable length arrays are not modelled
(a VLA of negative size is UB, one of size 0 is empty as in GNU C).

## 6. Status per property

| id | status | theorems |
|---|---|---|
| C01 | proved | `C01_oprf_round_trip` |
| C02 | proved | `C02_blinding_hides_input` |
| C03 | proved | `C03_expand_message_xmd_rfc9380`, `C03_tag` |
| C04 | proved | `C04_finalize_unambiguous`, `C04_finalize_encoding` |
| C05 | partial | `C05_every_byte_counts_refuted`, `C05_only_length_mod_256_counts`, `C05_every_byte_counts_partial` |
| C06 | proved | `C06_unblind_accepts_exactly` |
| C07 | proved | `C07_create_shares_polynomial` |
| C08 | proved | `C08_any_quorum_reconstructs` |
| C09 | proved | `C09_fewer_shares_reveal_nothing`, `C09_zero_coefficient_caveat` |
| C10 | proved | `C10_thresholdmult_any_quorum`, `C10_evaluate_succeeds` |
| C11 | proved | `C11_thresholdmult_order`, `C11_thresholdcombine_order` |
| C12 | proved | `C12_evaluate_then_combine`, `C12_evaluate_succeeds` |
| C13 | partial | `C13_thresholdcombine_rejects_invalid_refuted`, `C13_thresholdmult_rejects_invalid`, `C13_thresholdcombine_drops_invalid` |
| C14 | proved | `C14_3hashtdh_equals_threshold_oprf` |
| C15 | partial | `C15_share_generation_safe_refuted`, `C15_share_generation_safe_partial` |
| C16 | proved | `C16_coeff_lagrange`, `C16_coeff_nonzero` |
| C17 | proved | `C17_honest_shares_verify` |
| C18 | partial | `C18_verified_share_is_committed_refuted`, `C18_bit255_always_accepted`, `C18_verified_share_is_committed_partial`, `C18_verify_return_code` |
| C19 | partial | `C19_fails_list_exact_refuted`, `C19_fails_list` |
| C20 | proved | `C20_dkg_consistent`, `C20_quorums_agree`, `C20_honest_run` |
| C21 | proved | `C21_inverted_vandermonde` |
| C22 | proved | `C22_multiplication_polynomial`, `C22_product_reconstructs` |
| C23 | proved | `C23_mul_start_refuses` |
| C24 | proved | `C24_sent_message_accepted` |
| C25 | proved | `C25_acceptance_checks`, `C25_fields_unique` |
| C26 | partial | `C26_bodies_authenticated_refuted`, `C26_body_not_covered`, `C26_header_authenticated_partial` |
| C27 | partial | `C27_accepted_timestamps_sorted`, `C27_consecutive_within_window_refuted`, `C27_consecutive_within_window_partial`, `C27_drift_partial` |
| C28 | partial | `C28_rejected_leaves_state_refuted`, `C28_recorded_timestamp` |
| C29 | proved | `C29_collected_sizes`, `C29_tp_demands_reported_sizes`, `C29_peer_demands_reported_sizes`, `C48_slices_in_bounds`, `C36_reveal_sizes` |
| C30 | proved | `C30_tp_moves_forward`, `C30_peer_moves_forward`, `C30_tp_finishes`, `C30_peer_finishes`, `C30_tp_stays_done`, `C30_peer_stays_done` |
| C31 | partial | `C31_peer_error_ends`, `C31_tp_error_ends_refuted`, `C31_tp_step6_always_continues`, `C31_tp_error_ends_partial` |
| C32 | partial | `C32_tp_in_bounds_partial`, `C32_unlogged`, `C32_log_refuted`, `C32_count_refuted` |
| C33 | partial | `C33_peer_in_bounds_partial`, `C33_free_defined`, `C33_free_once`, `C33_free_after_success`, `C33_use_after_free_refuted`, `C33_double_free_refuted`, `C33_free_early_refuted`, `C33_complaints_refuted` |
| C34 | proved | `C34_cheater_list` |
| C35 | proved | `C35_complaints_well_formed`, `wf_reachable` |
| C36 | proved | `C36_complaints_agree`, `C36_reveal_sizes`, `C36_no_complaints_before` |
| C37 | partial | `C37_answered_partial`, `C37_bad_key_partial`, `C37_unanswered_blames_complainer_refuted` |
| C38 | partial | `C38_report_names_peer_refuted`, `C38_reports_partial` |
| C39 | proved | `C39_digests_agree`, `C39_same_broadcasts_or_collision` |
| C40 | proved | `C40_transcript_unambiguous` |
| C41 | proved | `C41_relayed_unchanged`, `C41_relayed_authentic` |
| C42 | proved | `C42_share_only_after_ok` |
| C43 | partial | `C43_all_peers_stop_refuted`, `C43_unaccused_continues`, `C43_unaccused_sends_digest`, `C43_tp_fails_partial`, `C43_accused_done_partial` |
| C44 | partial | `C44_honest_run`, `C44_clocks`, `C44_slow_clock_refuted` |
| C45 | partial | `C45_same_parameters_refuted`, `C45_same_parameters_partial` |
| C46 | partial | `C46_acks_ok_refuted`, `C46_acks_signed_partial`, `C46_honest_ack_partial` |
| C47 | partial | `C47_no_suppression_refuted`, `C47_complaints_partial` |
| C48 | proved | `C48_slices_in_bounds`, `C48_slices_apart` |
| C49 | partial | `C49_log_refuted`, `C49_tp_partial`, `C49_tp_log_harmless`, `C32_unlogged`, `C49_peer_partial` |
| C50 | proved | `C50_cheater_excludes_success`, `C50_success_means_no_cheaters` |
| C51 | proved | `C51_keys_signed` |
| C52 | proved | `C52_keys_agree` |
| C53 | proved | `C53_commitments_agree` |
| C54 | partial | `C54_python_shares_refuted`, `C54_python_shares_undefined`, `C54_python_shares_partial`, `C54_python_shares_return` |
| C55 | partial | `C55_python_oprf_refuted`, `C55_python_blind_prefix`, `C55_python_oprf_partial` |
| C56 | partial | `C56_start_refuted`, `C56_verify_refuted`, `C56_reconstruct_exact`, `C56_oprf_safe`, `C56_dkg_safe_partial` |
| C57 | partial | `C57_verify_reports_refuted`, `C57_verify_outcome_partial` |
| C58 | partial | `C58_started_parameters_refuted`, `C58_trusted_party_refuted`, `C58_start_peer_refuted`, `C58_peer_message_refuted`, `C58_started_parameters`, `C58_started_session_partial`, `C58_start_returns`, `C58_trusted_party_undefined_exactly_partial`, `C58_trusted_party_call`, `C58_peer_call`, `C58_peer_message`, `C58_peer_message_defined`, `C58_start_peer_short`, `C58_start_peer_partial`, `C58_started_peer_can_be_freed`, `C58_peer_defined_partial` |
| C59 | partial | `C59_late_answer_refuted`, `C59_own_stream`, `C59_same_value`, `C59_raw_messages`, `C59_in_order_partial`, `C59_message_sizes` |
| C60 | partial | `C60_short_answer_refuted`, `C60_failure_counts_refuted`, `C60_other_peer_refuted`, `C60_enough_partial`, `C60_full_if_connected`, `C60_returns_partial` |
| C61 | partial | `C61_too_few_refuted`, `C61_python_thresholdmult_partial`, `C61_python_combine_partial`, `C61_python_3hashtdh_partial`, `C61_python_servers_answer` |
| C62 | proved | `C62_key_update` |
| C63 | partial | `C63_python_dkg_partial` |
| C64 | partial | `C64_tcp_refuted`, `C64_certificate_refuted`, `C64_interrupted_read_refuted`, `C64_authenticated_exactly`, `C64_read_partial`, `C64_in_order_partial`, `C64_close_partial`, `C64_close_refuted` |
| C65 | proved | `C65_initiator_conforms`, `C65_responder_conforms` |
| C66 | proved | `C66_honest_channel` |
| C67 | proved | `C67_responder_identity`, `C67_initiator_identity` |
| C68 | partial | `C68_out_of_turn_refuted`, `C68_outcomes`, `C68_causes`, `C68_read_out_of_turn_partial`, `C68_write_out_of_turn` |
| C69 | proved | `C69_nonces`, `C69_nonces_differ`, `C69_failures_leave_no_trace` |
| C70 | proved | `C70_registry` |
| C71 | proved | `C71_device_roundtrip`, `C71_peer_roundtrip`, `C71_restored_is_authentic` |
| C72 | proved | `C72_lengths_and_levels`, `C72_send_rule`, `C72_receive_rule` |
| C73 | proved | `C73_channel_laws`, `C73_honest_run` |
| C74 | partial | `C74_session_delivers_partial`, `C74_failure_keeps_session`, `C74_responder_first_refuted`, `C74_prologue_refuted`, `C74_abi_refuted`, `C74_long_message_refuted` |
| C75 | partial | `C75_high_level_safe_partial`, `C75_low_level_refuted` |
| C76 | proved | `C76_responder_knows_its_peer` |
| C77 | proved | `C77_falsely_accused` |
| C78 | proved | `C78_used_once`, `C78_kept_on_error` |
| C79 | partial | `C79_wrong_text_refuted`, `C79_swapped_peers_refuted`, `C79_reports_true_partial` |
| C80 | partial | `C80_one_key_refuted`, `C80_one_key_bit255_refuted`, `C80_one_polynomial_partial`, `C80_one_key_partial`, `C80_quorums_agree_partial`, `C80_contribution` |
| C81 | proved | `C81_honest_shares`, `C81_honest_oprf`, `C81_shares`, `C81_oprf` |
| C82 | proved | `C82_python_keygen`, `C82_same_as_C` |
| C83 | proved | `C83_tampered`, `C83_guess`, `C83_other_key` |
| C84 | proved | `C84_assertion`, `C84_returns`, `C84_any_quorum` |
| C85 | proved | `C85_blamed_unanswered`, `C85_start` |
| C86 | proved | `C86_answer`, `C86_mask_bound`, `C86_answers_hide` |
| C87 | proved | `C87_dealer_shares_hide`, `C87_commitments_bind`, `C87_product_shares_hide` |
| C88 | proved | `C88_reveals_only_answers` |
| C89 | partial | `C89_peers_named_refuted`, `C89_get_cheaters_partial` |
| C90 | proved | `C90_product_sharing`, `C90_product_oprf`, `C90_generated_keys`, `C90_generated_keys_others_malicious` |
| C91 | proved | `C91_status`, `C91_max_security`, `C91_next_length`, `C91_next_length_true`, `C91_ids`, `C91_id_kept` |
| C92 | proved | `C92_conversation`, `C92_connect_in_order`, `C92_broadcast_in_order` |
| C93 | partial | `C93_longterm_signature_refuted`, `C93_unreported_is_good_partial`, `C93_failure_names_somebody_partial`, `C93_complaints`, `C93_complaints_settled`, `C93_digests` |
| C94 | proved | `C94_trusted_party`, `C94_peer`, `C94_session` |
| C95 | partial | `C95_shared_page_refuted`, `C95_lock_leak_refuted`, `C95_input_left_refuted`, `C95_coefficients_left_refuted`, `C95_lock_failure`, `C95_wiped_partial`, `C95_locked_partial`, `C95_released_partial`, `C95_same_functions` |
| C96 | partial | `C96_leak_refuted`, `C96_secrets_refuted`, `C96_device_first_refuted`, `C96_all_freed_partial`, `C96_documented_use_defined`, `C96_defined_exactly`, `C96_memory`, `C96_wiped_only_public_keys`, `C96_secrets_never_wiped` |
| C97 | partial | `C97_wrong_refuted`, `C97_repeated_refuted`, `C97_one_wrong_never_right_partial`, `C97_one_change_changes_mult`, `C97_one_change_changes_combine`, `C97_repeated_changes_combine`, `C97_two_wrong_can_cancel`, `C97_last_answer_decides` |
| C98 | proved | `C98_rest_fixed`, `C98_key_moves_with_secret`, `C98_nothing_before`, `C98_only_one_call_draws` |
| C99 | partial | `C99_hostile_network_refuted`, `C99_one_polynomial_partial`, `C99_one_key_partial`, `C99_quorums_agree_partial` |
| C100 | partial | `C100_keys_authentic_refuted`, `C100_keys_authentic_partial`, `C100_keys_substituted`, `C100_shares_overheard`, `C100_secret_overheard` |
| C101 | partial | `C101_network_kept_out_refuted`, `C101_network_learns_key`, `C101_digest_arrived_partial`, `C101_watched_unchanged` |
| C102 | partial | `C102_honest_accepted_refuted`, `C102_line_rejected`, `C102_evaluates_partial`, `C102_agreement_partial` |
| C103 | partial | `C103_once_refuted`, `C103_trusted_party_refuted`, `C103_numbers_refuted`, `C103_joins_iff_partial`, `C103_joined_partial`, `C103_nothing_remembered`, `C103_again_while_fresh`, `C103_window_partial`, `C103_renumbered`, `C103_numbers_noticed_partial` |
| C104 | proved | `C104_hash`, `C104_binding`, `C104_two_ends` |
| C105 | proved | `C105_shares`, `C105_serves`, `C105_old_results`, `C105_old_values`, `C105_goes_through`, `C105_memory` |
| C106 | proved | `C106_mobile_adversary` |
| C107 | partial | `C107_product_refuted`, `C107_one_dealer_short`, `C107_any_dealers`, `C107_enough_dealers_partial` |
| C108 | partial | `C108_tampering_refuted`, `C108_dealer_chooses`, `C108_goes_through`, `C108_exact_partial` |
| C109 | partial | `C109_quorums_agree_refuted`, `C109_right_quorums_partial`, `C109_goes_through` |
| C110 | partial | `C110_noticed_refuted`, `C110_delta_partial`, `C110_clients_partial`, `C110_server_chooses` |
| C111 | proved | `C111_key_put_together`, `C111_goes_through`, `C111_one_wrong_share` |
| C112 | proved | `C112_mixed_sessions`, `C112_sessions_apart` |
| C113 | proved | `C113_two_keys`, `C113_right_masks`, `C113_one_wrong_mask` |

Notes (refuted statements and what is proved instead):

* C05: REFUTED as stated: oprf_Blind takes the length as uint8_t, so only the first |x| mod 256 bytes count. Proved exactly what happens for every length, and the full claim for at most 255 bytes.
* C07: n <= 254 and a canonical secret (< L); n = 255 is the subject of C15.
* C09: Perfect secrecy as existence and uniqueness of the matching coefficients in [0,L); the caveat theorem shows what drawing only non-zero coefficients leaks.
* C13: REFUTED as stated for toprf_thresholdcombine: an undecodable response is silently left out and 0 returned. Proved for toprf_thresholdmult; exact behaviour of thresholdcombine proved.
* C15: REFUTED as stated: with n = 255 the uint8_t counter wraps and the loop writes out of bounds; threshold 0 gives a negative array bound. Proved safe for all n <= 254, 1 <= t <= 255.
* C18: REFUTED as stated: a share value with bit 255 set verifies but dkg_finish adds the unmasked value. Proved for all values below 2^255, with the exact meaning of the return code for arbitrary bytes.
* C19: REFUTED as stated: the first dealer with an undecodable commitment makes the function return -1 at once, later cheaters stay unreported. Exact behaviour on all inputs proved.
* C26: REFUTED as stated: send_msg and recv_msg sign and verify only the 47 header bytes after the signature, so any body of the same length is accepted. Proved that the body never matters to the check and that the header is authenticated.
* C27: Monotonicity proved for all histories. REFUTED as stated for the window: recv_msg records the time stamp before it verifies the signature, so a forged message in between moves the window; proved for histories without signature failures, and for all histories with one window more for each such message (C27_drift_partial).
* C28: REFUTED as stated: a message rejected for its signature (code 6) has already overwritten the recorded time stamp. Exact behaviour proved for all messages.
* C29: C36_reveal_sizes is the complaint resolution step 7, whose sizes depend on the complaints recorded on both sides.
* C31: REFUTED as stated: in step 6 tpdkg_tp_next does not set the final step on errors, the trusted party goes on to step 7 or 8. Proved for the peers and for every other step of the trusted party.
* C32: REFUTED as stated: tp_step68_handler prints to the log stream without checking it, so without logging a refused handshake message is a null pointer access; and in step 6 the announced number of complaints is compared with the message length in the wrong byte order, so it can exceed the input. Proved for every history, step, input content and length under exactly these two conditions; without logging the behaviour in steps 2 and 3 is characterised exactly.
* C33: REFUTED as stated: the peer ignores failures of the Noise handshake, so a bad handshake message leaves a freed session that the next step uses (C33_use_after_free_refuted) and tpdkg_peer_free frees again (C33_double_free_refuted); with uninitialised session variables, as in the documented example, freeing after an early error is undefined (C33_free_early_refuted); an oversized complaint list in step 6 overflows the complaint buffer (C33_complaints_refuted). Proved: every call of every history is defined if these causes are excluded, tpdkg_peer_free is defined exactly if no variable is uninitialised or freed, frees each live session once, and is defined for every peer past step 5.
* C35: With the buffer sizes the library asks for; wf_reachable shows the hypothesis tp_wf of this and the following claims holds in every history of a trusted party set up by the caller.
* C37: REFUTED as stated: tp_step18_handler records an unanswered complaint with the complainer as the culprit. Proved for every answered complaint: exactly one of the two is blamed, according to the share; a key that does not open the share is blamed on the accused.
* C38: REFUTED as stated: tpdkg_cheater_msg names nobody for error codes 65 and 71 and for refused digest messages. Proved: the set of entries any history can record, and for each of them whom the report names.
* C39: Up to an explicit collision of the hash function.
* C40: Messages shorter than 2^32 bytes (the absorbed length field has 32 bits).
* C41: The signature covers the header (see C26).
* C43: REFUTED as stated: a peer nobody complained about goes on to the transcript step. Proved for the trusted party and the accused peers.
* C44: REFUTED as stated for the clocks: the trusted party initialises the last time stamp of every peer with its own clock, so a peer whose clock is one second behind is refused and reported as a cheater. Proved for all n, t, keys and randomness under the exact freshness condition the code checks (a simple sufficient condition is C44_clocks), for peers that draw different Noise keys (the Noise library refuses to register a key twice) and with memory locking successful.
* C45: REFUTED as stated: tpdkg_start_tp accepts thresholds 0 and 1, which tpdkg_start_peer refuses. Proved: a peer accepts iff t>=2, and then agrees on all parameters.
* C46: REFUTED as stated: tp_step22_handler only logs an acknowledgement that does not say OK. Proved that every peer signed an acknowledgement header and that a peer following the code only ever sends OK.
* C47: REFUTED as stated: a dealer with unusable commitments (identity or undecodable) stops the verification, bad shares of later dealers are not complained about. Proved exactly which dealers are named.
* C49: REFUTED as stated: see C32; without logging a refused message in steps 2 and 3 of the trusted party is undefined behaviour. Proved: no influence in all other steps, and in those steps if no message is refused; for peers no influence provided the Noise library knows the peers of the sessions it created.
* C54: REFUTED as stated: n and t are passed to C as bytes without a check, so for more than 254 shares the call is undefined (n mod 256 = 255 or t mod 256 = 0) or shares a secret with the wrong parameters; and __check tests the return value of a void function, so whether the call raises depends on a register. Proved for n <= 254, and exactly when it returns.
* C55: REFUTED as stated: the length of the input is truncated to 8 bits in blind and 16 bits in finalize, so inputs of 65536 bytes or more have colliding outputs and for more than 255 bytes only a prefix is blinded. Proved for inputs of at most 255 bytes.
* C56: REFUTED as stated: 255 parties make the loops of the C code run on; dkg_reconstruct reads outside responses that are too short (characterised exactly). Proved: the other functions for all arguments, and create_shares, dkg_start and dkg_verify_commitments for up to 254 parties. A wrong number of coefficients cannot occur.
* C57: REFUTED as stated: __check turns the return value of the C function into an exception before the list is built. Proved: the call returns the empty list or raises, and raises exactly if a dealer cheated or has unusable commitments (n <= 254).
* C58: REFUTED as stated: parameters are taken modulo 256; the bindings leave the log stream unset (a program can set it through ctypes, as the example does), so without that a refused handshake message in step 2 or 3 of the trusted party is a null pointer access; a first message of fewer than 142 bytes is read out of bounds. Proved: what session is started, exactly when a call on the trusted party is undefined (in step 6 for messages whose announced lengths lie inside them), peers under the conditions of C33, and what an exception leaves behind.
* C59: REFUTED as stated: if fewer answers than there are peers are asked for, the answer of a late peer is returned as its answer to the next request. Proved for every call: each entry is made from the next messages of its own peer and does not depend on schedule or other peers; and for sequences of calls that wait for all peers: answers are the successive messages.
* C60: REFUTED as stated: a closed connection counts as an empty answer, a failure report counts as an answer, and one peer that sends part of a message makes the call raise. Proved: n different peers answered or reported failure, at least one with a value; answers of peers still connected are complete; the call returns if n peers deliver and the others are silent.
* C61: REFUTED as stated in one point: empty lists of responses are accepted. Proved for all sets of at least t responses and n <= 254.
* C62: Inputs of any length whose first (length mod 256) bytes (what the C library is told to use, see C55) do not hash to the neutral element; memory locking succeeds.
* C63: REFUTED as stated for 255 parties, where the C functions loop out of bounds (see C56_start_refuted); proved for every number up to 254.
* C64: REFUTED as stated: a peer of type TCP can never be connected; giving a certificate file switches all checks of the certificate off; a read interrupted by a timeout loses the bytes already received. Proved: authentication exactly, reads in order while no read raises, nothing after close; closing a peer that is marked closed although a later connect failed leaves the new socket open.
* C65: The specification (XkSpec, part 1) is written after the Noise specification revision 34, sections 5 and 7.5, with HMAC and HKDF of section 4.3. Deviation stated in part 2: messages are limited to 32-bit lengths, not to 65535 bytes. Incoming messages of more than 2^32-64 bytes are excluded.
* C68: REFUTED as stated in one point: sending out of turn ends the session (reading out of turn does no harm). Proved: what each return code means, the complete list of causes that end a session, reads out of turn, and that a write out of turn always ends the session.
* C72: Level 1 (encryption to an ephemeral recipient) is not provided by level 2, as in the code and the table of the Noise specification; see conf_met.
* C73: The laws of the libsodium primitives (xprims_ok) are hypotheses.
* C74: REFUTED as stated: if the responder sends first, its call raises and the session is dead for good; two different str tags can be accepted as equal, as only the first quarter of the UTF-32 encoding is used; return structures of two bytes are read as four, so calls may fail depending on unspecified register contents; messages of 2^32 bytes or more are cut silently. Proved: delivery when the registers are clear, the tags agree in the bytes used and the responder waits for the first message; calls that raise after the handshake change nothing.
* C75: REFUTED as stated for the low-level functions: get_pubkey before the end of the handshake, using the None returned by create_session_initiator for an unknown peer or by add_peer for a known key, and keys shorter than 31 bytes are undefined. Proved: the high-level functions and all uses of their sessions never are, for keys of at least 31 bytes.
* C76: For clear return registers (see C74).
* C77: Uses the laws of the channel (crypto_ok), including that the key an initiator reveals decrypts what it sent first; the Noise library is proved to meet them (C73).
* C78: The second theorem records what happens if the first call fails.
* C79: REFUTED as stated: for a revealed key that does not fit, the printed text says that the key was not asked for; for an unanswered complaint the two peers are swapped. What is proved: every entry stands for something that happened, for every history; the texts are true except for the listed kinds of entries (judging step: codes 3, 4, 5, 7, 127; message faults 65 and 71; step 20: all codes but 1), and for these, except for the two with swapped numbers, never true.
* C80: REFUTED as stated: a dealer that publishes the identity (or anything that is not a point) as a commitment other than the first stops the verification in every peer without a complaint (peer_step15_handler ignores the return code), and can deal inconsistent shares; so can a dealer that sets bit 255 of a share. Proved for every session in which all published commitments but the first of each dealer are points other than the identity and the received share values are below 2^255.
* C81: The two conditions of the second case are needed: C80 refutes agreement on the key without them.
* C82: Memory can be allocated and the state buffers lie at addresses the bindings accept (C58 says which). The comparison of public keys needs non-zero shares: libsodium refuses to multiply by zero.
* C85: The second disjunct names the two keys and the encrypted share. That an honest complainer can be blamed when the accused does not answer is C37; the nonvacuity example shows such a run.
* C86: Perfect hiding as a bijection between the possible sharings of zero; the model has no probabilities. The answers of the third theorem are those of the first (masked). A session id of 65536 bytes or more cannot be passed (uint16_t).
* C87: Perfect hiding as uniqueness of the random values; the model has no probabilities. The shares alone are meant: the commitments of dkg_start determine the secret (second theorem) and hide it only as far as discrete logarithms are hard.
* C88: Says which keys are revealed and what the peer had read. That a complaint in the broadcast was made by the peer it names is not implied: signatures cover only the header (C26, refuted), so whoever controls the channel can put complaints into it.
* C89: REFUTED as stated: the condition 0 >= p > n of tpdkg_get_cheaters is never true, so 0 enters the set for every report that names nobody (for instance a message with a wrong length). All the rest is proved: no exception, one complete text for each entry in order, and the set is exactly that of the peers named, each of them 1..n apart from 0.
* C90: The dealers of the multiplication follow the protocol: Simple-Mult has no verification (src/mpmult.c implements only that step). At most 254 recipients (C15).
* C91: A session that died in the handshake still reports the status it had when it was created (handshake_write for the initiator, handshake_read for the responder): the status does not show that it is of no more use; first theorem.
* C92: gather without a proc and for the answers of all peers (for fewer, C59 is refuted). A broadcast that raises has reached some of the peers: repeating it sends them the request twice.
* C93: REFUTED as stated: at the first long-term signature that is wrong tp_step4_handler returns without recording anything and without looking at the other messages, so the session ends and nobody is named. With all long-term signatures right, and as long as the list has room, everything else holds.
* C94: Relational: two histories that differ in the long-term keys and signatures only. In C94_trusted_party all inputs are arbitrary as long as the signatures under the long-term keys are valid in both histories (an invalid one ends the session with code 3, C93). C94_session covers any schedule of the driver loop of src/tests/tp-dkg.c, failing ones included.
* C95: REFUTED as stated, in four ways: locks do not nest, so voprf_hash_to_group's unlock also unlocks the hashed input of oprf_Blind when both lie on one page; oprf_Blind does not unlock when the second lock fails; expand_message_xmd leaves the input itself on the stack; toprf_create_shares neither locks nor wipes the coefficients. For the temporaries the library asks to lock: they are wiped on every path, locked while used if these two are on different pages, released except for that one failure; a lock that fails fails the call and nothing is written.
* C96: REFUTED as stated, in three ways: device_free leaves the symmetric key of the device and everything of the peers that are still registered except the list cells; no private, symmetric or session key is ever wiped before it is freed (only the public key of a removed peer is); a responder that reads a handshake message uses its device, also after the device was freed. The rest holds: C96_documented_use_defined (no use after free, no double free under the documented use), C96_defined_exactly (the only undefined call), C96_memory (exact content of the memory after any calls), C96_all_freed_partial (exactly what is left). Needs xprims_ok only for the length of decrypted payloads.
* C97: REFUTED as stated: the combining calls verify nothing, a wrong or repeated response gives success with a wrong value, and the last to answer can choose the outcome (all but at most one group element). What holds: with exactly one wrong response the outcome is never the right one, so it cannot pass unnoticed if the right value is recognised later; two wrong ones can cancel out.
* C98: Sessions that end well, with sound commitments and share values below 2^255 (without these C80 is refuted and there need not be one key). All commitments are published in the same round, so a dealer that colludes with the trusted party can see those of the others before it chooses its own: it can then bias the public key (as known for this kind of key generation); what is proved is that it cannot fix or cancel the contribution once its commitments are chosen.
* C99: REFUTED as stated: the signatures of the messages cover the header only (C26), so a network without any key can change the bodies; if it empties the lists of complaints about a dealer that sent inconsistent shares, every call returns 0 and the honest peers hold shares of different keys. It holds (also needed: sound commitments and shares below 2^255 as in C80) if the signed messages of the trusted party and of the honest peers arrive unaltered or not at all; all other traffic, and what carries signatures of the other peers, is arbitrary, and the peers are not assumed to have started with the trusted party's numbers (C103).
* C100: REFUTED as stated: the trusted party's signature on the broadcast of keys covers its header only (C26), and the messages in it are signed with the session keys they carry; peers do not see the long-term signatures. So somebody on the network without any participant's key can put in keys of its own for any set of peers and the peer accepts (C100_keys_substituted: for every accepted broadcast, every set, all keys), reads the shares dealt to them (C100_shares_overheard), and with threshold many of them computes the peer's contribution to the key (C100_secret_overheard). It holds if the broadcast arrives unaltered (C100_keys_authentic_partial).
* C101: REFUTED as stated, for every session of honest parties: a relay that knows only the number of peers and the threshold and has keys of its own replaces the keys in the key broadcast (C100) and later the transcript digests, which are not covered by the signatures either (C26); it reads all shares and computes the key. All return codes are 0, nothing is recorded, the shares are those of the undisturbed session (C101_network_learns_key). The relay's keys must differ from each other and from the peers' (relay_keys). What the digests achieve: a digest message that arrives unaltered means that this peer heard the same broadcasts as the trusted party sent, or a collision of the hash (C101_digest_arrived_partial); if all messages arrive unaltered the session is the undisturbed one (C101_watched_unchanged).
* C102: REFUTED as stated: vsps_check reads its matrix with rows of t instead of t+1 entries, does not set the last of the left positions, and takes the right commitments one place too late; commitments to the line f(x)=x are rejected for all but one value of the random point whatever the byte not set (other than 1) is. What holds of its parts, given the matrix with rows of t+1 entries and the commitments at its positions: _vsps computes the commitment at the random point (C102_evaluates_partial), and two windows agree for more than t points only if everything lies on one polynomial with t+1 coefficients (C102_agreement_partial). The code is in src/tests, not in the library.
* C103: REFUTED as stated, in all three parts: tpdkg_start_peer takes the session id and the key for checking the signature from the announcement itself and keeps no record, so a peer joins the same session again, and anybody's session; and the signature covers the header only, so the number of peers and the threshold can be changed on the way. docs/tp-dkg.txt says a peer SHOULD check that the session id is fresh; there is no such check, only the time stamp. Exact: C103_joins_iff_partial, C103_joined_partial; what remains of protection against replay is the window (C103_again_while_fresh, C103_window_partial, the latter for clocks at least a window away from 0 and 2^64). Changed numbers do not survive the session: C103_numbers_noticed_partial, if nobody forges headers and all calls return 0.
* C104: A collision is named: two different strings, each among those that one of the two handshakes hashed. C104_two_ends assumes that both static public keys belong to their private keys, as device_create makes them.
* C105: The protocol of docs/tp-update.txt as a composition of the functions that exist; how its messages travel is not in the code. 2t-1 dealers are enough (the document asks for 2t+1). Deltas must not be 0.
* C106: Passive adversary, perfect secrecy in the sense of C09 and with its caveat: the code never draws the coefficient 0, so a compatible run may need coefficients with negligible probability the code does not draw. Fewer servers see less, so t-1 is the strongest case.
* C107: REFUTED as stated: toprf_mpc_mul_finish takes any number of dealers and does not know the threshold of the old sharing; with 2t-2 dealers the servers always end with consistent shares of a key that is not the product (C107_one_dealer_short), and any non-empty set of dealers gives shares of some key. Proved if at least 2t-1 deal.
* C108: REFUTED as stated: what a dealer deals is not checked against its two shares; one dealer shifts the new key by any amount it likes, computed from the numbers of the dealers alone (C108_dealer_chooses), and the update goes through with consistent shares. Proved: the new servers hold shares of one key, which is the product exactly if the dealer adds nothing.
* C109: REFUTED as stated: toprf_mpc_mul_finish has nothing to check a received share against, so one dealer spoils the share of one server of its choice. Proved: exactly the quorums without that server put together the product; every quorum with it, of any size, puts together something else (unless nothing was added).
* C110: REFUTED as stated: dkg_reconstruct takes any shares and cannot fail, even if more than the threshold are reported; the server shifts delta by any amount it chooses (C110_server_chooses) and the client ends with a wrong result without an error. Proved: delta, and what the client then has, are right exactly if no reported share is wrong.
* C111: For 3hashtdh the masking shares of 0 are those of one sharing, with at least its threshold of servers asked.
* C112: C112_mixed_sessions is exact (right if and only if the server is not asked or the two masks coincide); the absence of a collision on the two inputs named is a hypothesis of C112_sessions_apart.
* C113: For answers none of which is the identity; with such an answer toprf_thresholdmult returns an error.

## 7. Trusted base

* Coq 8.16.1's kernel (including its virtual machine for `vm_compute`; `coqchk` re-checks
  without it).
* The reading of the C code into the definitions of the `*Model.v` files, each of which cites
  the lines it models.
* The laws of the primitives in section 2, which are hypotheses of the theorems.
* `Print Assumptions` reports "Closed under the global context" for every theorem named in
  MANIFEST.json: no axioms are used, neither own ones nor the standard library's.
  (`coqchk` lists `Coq.ssr.ssrunder.Under_rel.*` because the module is loaded by the standard
  library's ssreflect files; no theorem here depends on it.)

## 8. Seeded bugs

`seeded/LOG.jsonl` records the edits of the models that were tried in a scratch copy, and
which theorems failed.
