{"id": "C01", "title": "OPRF round trip is correct and independent of the blind", "statement": "For every input x of at most 255 bytes whose hash to the group is not the identity, every server key k that is non-zero mod the group order and every blind r that oprf_Blind may draw, oprf_Blind, oprf_Evaluate and oprf_Unblind all return 0 and the unblinded element is k*HashToGroup(x), so oprf_Finalize returns the same value as an unblinded computation, whatever r was.", "quantifier": "all inputs, all keys, all random blinds", "why_tests_cant": "tests run a handful of vectors with a fixed or a few random blinds; the blind ranges over 2^252 values and the input over all byte strings", "anchors": ["src/oprf.c:oprf_Blind", "src/oprf.c:oprf_Evaluate", "src/oprf.c:oprf_Unblind", "src/oprf.c:oprf_Finalize"]}
{"id": "C02", "title": "Blinding perfectly hides the input", "statement": "For any two inputs whose hash to the group is not the identity and any blinded element produced for the first, there is exactly one blind in [1,L-1] that produces the same blinded element for the second input: the server's view is independent of the input.", "quantifier": "all pairs of inputs, all blinds", "why_tests_cant": "a statement about the distribution of outputs over the whole blind space; sampling cannot show that a unique matching blind always exists", "anchors": ["src/oprf.c:oprf_Blind"]}
{"id": "C03", "title": "expand_message_xmd implements RFC 9380", "statement": "For every message of at most 255 bytes (its length is a uint8_t), every domain separation tag of at most 254 bytes and every requested length from 0 to 255, the bytes written equal those of RFC 9380 section 5.3.1 expand_message_xmd with SHA-512, nothing outside the requested length is written, and a 255-byte tag is refused.", "quantifier": "all messages, tags and output lengths", "why_tests_cant": "the test vectors use few lengths; the hand-unrolled two-step loop has its own boundary for every length", "anchors": ["src/oprf.c:expand_message_xmd", "src/oprf.c:expand_loop"]}
{"id": "C04", "title": "Finalize hashes an unambiguous encoding", "statement": "Two calls of oprf_Finalize hash the same byte string only if they were given the same input and the same group element (input lengths below 2^16): no two distinct (x,N) pairs share a preimage.", "quantifier": "all pairs of inputs and elements", "why_tests_cant": "injectivity over all pairs of byte strings", "anchors": ["src/oprf.c:oprf_Finalize"]}
{"id": "C05", "title": "Every byte of the input counts", "statement": "The result of oprf_Blind depends on the whole input the caller passes: when a caller passes a buffer of any length, the blinded element is r*HashToGroup of the entire buffer.", "quantifier": "all input lengths", "why_tests_cant": "tests use short inputs only; the length parameter has 8 bits, so the violating lengths are never exercised", "anchors": ["src/oprf.c:oprf_Blind", "src/oprf.h", "python/pyoprf/__init__.py:blind"]}
{"id": "C06", "title": "Unblind accepts only genuine group elements and usable blinds", "statement": "oprf_Unblind returns 0 exactly when the received element is the canonical encoding of a non-identity group element and the blind is non-zero mod L, and then the result r^-1*Z is the only element N with r*N=Z.", "quantifier": "all 32-byte strings as received element, all 32-byte blinds", "why_tests_cant": "2^256 candidate encodings; tests try a few", "anchors": ["src/oprf.c:oprf_Unblind"]}
{"id": "C07", "title": "create_shares evaluates a polynomial of degree below the threshold", "statement": "For every secret, n<=254, threshold>=1 and coefficients drawn, toprf_create_shares fills exactly shares 1..n, share i carries index i and the value f(i) mod L for one polynomial f with `threshold` coefficients and f(0)=secret.", "quantifier": "all secrets, n, thresholds and random coefficients", "why_tests_cant": "the claim is about every point of every polynomial", "anchors": ["src/toprf.c:toprf_create_shares"]}
{"id": "C08", "title": "Any threshold-many distinct shares reconstruct the secret", "statement": "For every subset of at least `threshold` shares with distinct indices, in any order, dkg_reconstruct returns the shared secret.", "quantifier": "all secrets, polynomials, subsets and orders", "why_tests_cant": "exponentially many subsets and orders, 2^252 secrets", "anchors": ["src/dkg.c:dkg_reconstruct", "src/toprf.c:coeff", "src/toprf.c:toprf_create_shares"]}
{"id": "C09", "title": "Fewer than threshold shares reveal nothing about the secret", "statement": "For any threshold-1 distinct share indices with any share values and any candidate secret there is exactly one choice of the remaining polynomial coefficients for which toprf_create_shares outputs those very shares.", "quantifier": "all secrets, all sets of threshold-1 indices and share values", "why_tests_cant": "a statement about all polynomials over a 252-bit field; no test can count them", "anchors": ["src/toprf.c:toprf_create_shares"]}
{"id": "C10", "title": "Threshold multiplication computes k*alpha from any quorum in any order", "statement": "For every set of at least `threshold` responses k_i*alpha with distinct indices, in any order, toprf_thresholdmult returns 0 and outputs k*alpha.", "quantifier": "all keys, polynomials, quorums, orders and elements", "why_tests_cant": "subset and order space is exponential; field and group are cryptographic size", "anchors": ["src/toprf.c:toprf_thresholdmult", "src/toprf.c:coeff", "src/toprf.c:sort_parts"]}
{"id": "C11", "title": "Combining is independent of the order in which responses arrive", "statement": "For arbitrary responses, including malformed ones, permuting the responses does not change the outcome of toprf_thresholdmult (success and result, or failure) nor the outcome of toprf_thresholdcombine.", "quantifier": "all lists of at most 255 responses and all their permutations", "why_tests_cant": "up to 255! orders; network arrival order is nondeterministic", "anchors": ["src/toprf.c:toprf_thresholdmult", "src/toprf.c:toprf_thresholdcombine", "src/toprf.c:sort_parts"]}
{"id": "C12", "title": "Precomputed-quorum evaluation combines to k*alpha", "statement": "If every member of a quorum of at least `threshold` distinct indices runs toprf_Evaluate with the quorum's index list, then toprf_thresholdcombine of the parts outputs k*alpha.", "quantifier": "all quorums, keys, elements", "why_tests_cant": "exponentially many quorums", "anchors": ["src/toprf.c:toprf_Evaluate", "src/toprf.c:toprf_thresholdcombine"]}
{"id": "C13", "title": "Combining rejects responses that are not group elements", "statement": "If some response handed to the combining functions is not the encoding of a group element, the call reports failure instead of returning a result that silently omits it.", "quantifier": "all lists of responses", "why_tests_cant": "requires reasoning about every malformed encoding at every position", "anchors": ["src/toprf.c:toprf_thresholdcombine", "src/toprf.c:toprf_thresholdmult"]}
{"id": "C14", "title": "3HashTDH gives the same result as the plain threshold OPRF", "statement": "If the z_i are shares of zero and the k_i shares of k, then toprf_thresholdmult of the toprf_3hashtdh outputs of any quorum for one ssid equals k*alpha, for every ssid and alpha.", "quantifier": "all keys, zero-sharings, quorums, session ids and elements", "why_tests_cant": "cancellation of the blinding terms must hold for every quorum and every random zero sharing", "anchors": ["src/toprf.c:toprf_3hashtdh", "src/toprf.c:toprf_thresholdmult"]}
{"id": "C15", "title": "Share generation stays inside the buffers and terminates for every n", "statement": "For every n from 1 to 255 and every threshold, toprf_create_shares and dkg_start terminate and touch only the n shares the caller provided.", "quantifier": "all values of the 8-bit parameters n and threshold", "why_tests_cant": "the failing boundary is a hang / out-of-bounds write, and tests use small n", "anchors": ["src/toprf.c:toprf_create_shares", "src/dkg.c:dkg_start", "src/dkg.c:dkg_verify_commitments"]}
{"id": "C16", "title": "coeff is the Lagrange coefficient at zero", "statement": "For every list of peer indices and every index, coeff returns prod over the peers j different from index of j/(j-index) mod L; for distinct non-zero peer indices it is never zero.", "quantifier": "all index lists", "why_tests_cant": "all index lists up to 255 entries", "anchors": ["src/toprf.c:coeff"]}
{"id": "C17", "title": "Honest shares always verify", "statement": "For every dealer running dkg_start with any randomness, every recipient's dkg_verify_commitment on the dealer's share and commitments returns 0.", "quantifier": "all n, thresholds, coefficients, recipients", "why_tests_cant": "all random polynomials; the identity-point corner cases are never drawn in tests", "anchors": ["src/dkg.c:dkg_start", "src/dkg.c:dkg_verify_commitment"]}
{"id": "C18", "title": "A verified share is the committed polynomial's value", "statement": "If dkg_verify_commitment accepts a share from another dealer, then the integer that dkg_finish later adds for this share is, mod L, the evaluation at the recipient's index of the unique polynomial the commitments commit to.", "quantifier": "all 33-byte shares and all commitment vectors", "why_tests_cant": "adversarial inputs over 2^256 values; the violating encodings are not produced by honest code", "anchors": ["src/dkg.c:dkg_verify_commitment", "src/dkg.c:dkg_finish"]}
{"id": "C19", "title": "Verification reports exactly the cheating dealers", "statement": "After dkg_verify_commitments returns, the fails list contains exactly the dealers (other than self) whose share does not match their commitments, in increasing order, whatever the commitments contain.", "quantifier": "all commitment matrices and share vectors", "why_tests_cant": "adversarial commitments of every kind in every combination", "anchors": ["src/dkg.c:dkg_verify_commitments"]}
{"id": "C20", "title": "DKG yields one consistent sharing of the sum of the dealers' secrets", "statement": "If every recipient verified every dealer and the share values are below 2^255 (see C18), then the dkg_finish results of any t recipients reconstruct to the same value, the sum of the dealers' constant terms, and its public key is the sum of the constant-term commitments.", "quantifier": "all sets of dealers, all polynomials, all reconstruction quorums", "why_tests_cant": "exponential number of quorums and cryptographic-size randomness", "anchors": ["src/dkg.c:dkg_finish", "src/dkg.c:dkg_reconstruct", "src/dkg.c:dkg_start"]}
{"id": "C21", "title": "The inverted Vandermonde matrix is the inverse", "statement": "For every list of distinct 8-bit indices invertedVDMmatrix returns a matrix whose product with the Vandermonde matrix of the indices is the identity, in spite of in-place pivoting.", "quantifier": "all lists of distinct indices of every length up to 255", "why_tests_cant": "Gaussian elimination with scaled pivoting takes a different path for each index set; there are 2^255 of them", "anchors": ["src/mpmult.c:invertedVDMmatrix", "src/mpmult.c:gaussian", "src/mpmult.c:invert", "src/mpmult.c:genVDMmatrix"]}
{"id": "C22", "title": "Multi-party multiplication shares the product", "statement": "If at least 2t-1 dealers with distinct indices reshare the products of their shares of a and b with toprf_mpc_mul_start, then the values of toprf_mpc_mul_finish lie on one polynomial of degree below t and any t of them reconstruct a*b.", "quantifier": "all secrets, polynomials, dealer sets, recipient sets", "why_tests_cant": "cryptographic-size randomness and exponentially many dealer sets", "anchors": ["src/mpmult.c:toprf_mpc_mul_start", "src/mpmult.c:toprf_mpc_mul_finish"]}
{"id": "C23", "title": "MPC multiplication refuses unusable parameters", "statement": "toprf_mpc_mul_start returns non-zero and writes no share exactly when the two input shares have different indices, the threshold is zero or there are fewer recipients than the threshold.", "quantifier": "all shares and 8-bit parameters", "why_tests_cant": "boundary over all parameter pairs", "anchors": ["src/mpmult.c:toprf_mpc_mul_start"]}
{"id": "C24", "title": "A sent protocol message is accepted by its addressee", "statement": "For every message number, length, sender, recipient, session id and payload, the bytes produced by the sender are accepted by the recipient's receive check whenever the recipient expects that number, length, pair of parties and session, holds the matching public key and its clock satisfies the freshness rule; timestamps and lengths survive the byte-order conversions.", "quantifier": "all header fields and payloads", "why_tests_cant": "64-bit timestamps, 32-bit lengths", "anchors": ["src/tp-dkg.c:send_msg", "src/tp-dkg.c:recv_msg", "src/tp-dkg.c:htonll", "src/tp-dkg.c:ntohll"]}
{"id": "C25", "title": "Acceptance implies every header check", "statement": "A protocol message is accepted only if its number, length field, sender, recipient, session id match what is expected, its timestamp is fresh and its signature verifies under the expected key over the header; each rejection code names the first check that failed.", "quantifier": "all byte strings as received message", "why_tests_cant": "adversarial input over all byte strings", "anchors": ["src/tp-dkg.c:recv_msg"]}
{"id": "C26", "title": "Message bodies are authenticated", "statement": "No change to the body of an accepted protocol message goes unnoticed: if two messages differ in their body and both are accepted then each was signed separately.", "quantifier": "all messages and all modifications of their bodies", "why_tests_cant": "adversarial modification of any byte", "anchors": ["src/tp-dkg.c:send_msg", "src/tp-dkg.c:recv_msg", "docs/tp-dkg.txt"]}
{"id": "C27", "title": "Accepted timestamps of a sender never go backwards", "statement": "Along every history of received messages the timestamps accepted from one sender are non-decreasing and consecutive ones differ by at most the freshness window, so an old message is not accepted again.", "quantifier": "all histories of messages and clock readings, all 64-bit timestamps", "why_tests_cant": "histories are unbounded and the arithmetic is modular", "anchors": ["src/tp-dkg.c:check_ts", "src/tp-dkg.c:recv_msg"]}
{"id": "C28", "title": "A rejected message leaves the receiver's state unchanged", "statement": "When a receive check fails, in particular for a forged signature, the recorded last timestamp of the claimed sender is not altered, so a forger cannot make later genuine messages be rejected.", "quantifier": "all messages and states", "why_tests_cant": "adversarial messages in all states", "anchors": ["src/tp-dkg.c:recv_msg", "src/tp-dkg.c:check_ts"]}
{"id": "C29", "title": "Trusted party and peers agree on all buffer sizes", "statement": "At every protocol step and for all n and t, the number of bytes the trusted party asks for is the sum of what the peers produce, the bytes it dispatches to peer i have the length peer i asks for, and the sizes reported by the size queries are exactly those that the step handlers demand.", "quantifier": "all n, t, steps, complaint sets", "why_tests_cant": "sizes are symbolic in n and t and depend on the complaint history", "anchors": ["src/tp-dkg.c:tpdkg_tp_input_size", "src/tp-dkg.c:tpdkg_tp_output_size", "src/tp-dkg.c:tpdkg_peer_input_size", "src/tp-dkg.c:tpdkg_peer_output_size", "src/tp-dkg.c:tpdkg_tp_peer_msg"]}
{"id": "C30", "title": "The protocol state machines only move forward and finish", "statement": "Whatever bytes arrive, every call of the next functions strictly increases the step of an unfinished party, so the trusted party is done after at most 10 and a peer after at most 11 calls, and a finished party stays finished.", "quantifier": "all sequences of inputs of any length and content", "why_tests_cant": "unbounded histories of adversarial inputs", "anchors": ["src/tp-dkg.c:tpdkg_tp_next", "src/tp-dkg.c:tpdkg_peer_next", "src/tp-dkg.c:tpdkg_tp_not_done", "src/tp-dkg.c:tpdkg_peer_not_done"]}
{"id": "C31", "title": "An error ends the protocol", "statement": "Whenever a next function returns an error the party reports itself as done afterwards and sends nothing further.", "quantifier": "all states and inputs", "why_tests_cant": "all adversarial inputs in all states", "anchors": ["src/tp-dkg.c:tpdkg_tp_next", "src/tp-dkg.c:tpdkg_peer_next"]}
{"id": "C32", "title": "The trusted party is memory safe against malicious peers", "statement": "For every content of correctly sized input buffers, at every step and whether or not logging is enabled, tpdkg_tp_next reads and writes only inside the buffers it was given and dereferences no null pointer.", "quantifier": "all byte contents, steps, n, t, logging on or off", "why_tests_cant": "adversarial byte contents; over-reads do not show up in functional tests", "anchors": ["src/tp-dkg.c:tpdkg_tp_next", "src/tp-dkg.c:tp_step68_handler", "src/tp-dkg.c:tp_step16_handler"]}
{"id": "C33", "title": "A peer is memory safe against malicious peers and a malicious trusted party", "statement": "For every content of correctly sized input buffers, at every step, tpdkg_peer_next stays inside its buffers, never uses a freed or missing secure-channel session, and tpdkg_peer_free frees each session at most once.", "quantifier": "all byte contents, steps, n, t and failure points of the secure channel", "why_tests_cant": "adversarial contents and failure injection at each handshake", "anchors": ["src/tp-dkg.c:tpdkg_peer_next", "src/tp-dkg.c:peer_step17_handler", "src/tp-dkg.c:tpdkg_respond_noise_handshake", "src/tp-dkg.c:tpdkg_peer_free"]}
{"id": "C34", "title": "The cheater list never overflows and is only extended", "statement": "Along every history the number of recorded cheaters never exceeds the capacity the caller provided and recorded entries are never removed or altered.", "quantifier": "all histories and inputs", "why_tests_cant": "adversarial histories", "anchors": ["src/tp-dkg.c:add_cheater", "src/tp-dkg.c:tpdkg_tp_next"]}
{"id": "C35", "title": "Recorded complaints are well formed and bounded", "statement": "After the trusted party processed the complaints, every recorded complaint names a complainer and an accused in 1..n, none is recorded twice and there are at most n*n; if it reports success then there are fewer than t*t and nobody was recorded as cheater in that step.", "quantifier": "all complaint messages", "why_tests_cant": "adversarial contents", "anchors": ["src/tp-dkg.c:tp_step16_handler"]}
{"id": "C36", "title": "Trusted party and peers agree on the complaints", "statement": "If the trusted party accepts the complaint messages and broadcasts them, every peer that accepts the broadcast derives the same complaint list, and the number of keys each accused peer must reveal equals the number the trusted party expects.", "quantifier": "all complaint messages accepted by the trusted party, all n", "why_tests_cant": "adversarial contents, all complaint graphs", "anchors": ["src/tp-dkg.c:tp_step16_handler", "src/tp-dkg.c:peer_step17_handler", "src/tp-dkg.c:tpdkg_tp_input_sizes", "src/tp-dkg.c:tpdkg_peer_output_size"]}
{"id": "C37", "title": "Complaint resolution blames the guilty party", "statement": "For every complaint answered with a correctly authenticated and decryptable share, exactly one of complainer and accused is blamed: the accused if the share does not match the commitments, the complainer if it does; a complaint the accused leaves unanswered is blamed on the accused.", "quantifier": "all complaint graphs, revealed keys, shares and commitments", "why_tests_cant": "adversarial contents in all combinations", "anchors": ["src/tp-dkg.c:tp_step18_handler", "src/tp-dkg.c:tpdkg_cheater_msg"]}
{"id": "C38", "title": "Cheater reports name the recorded peer", "statement": "For every cheater entry that the trusted party can record, the report function returns the index of the peer recorded as cheating.", "quantifier": "all entries recordable in any history", "why_tests_cant": "all error codes of all steps", "anchors": ["src/tp-dkg.c:tpdkg_cheater_msg", "src/tp-dkg.c:add_cheater"]}
{"id": "C39", "title": "Success implies that all parties saw the same broadcasts", "statement": "If the trusted party's transcript step succeeds, every peer's transcript digest equals the trusted party's; two parties with equal digests absorbed the same sequence of broadcast messages or exhibit a hash collision.", "quantifier": "all sequences of broadcasts, all messages", "why_tests_cant": "histories and messages are unbounded", "anchors": ["src/tp-dkg.c:tp_step20_handler", "src/tp-dkg.c:update_transcript", "src/tp-dkg.c:peer_step19_handler"]}
{"id": "C40", "title": "The transcript encoding is unambiguous", "statement": "Different sequences of broadcast messages are never absorbed as the same byte string.", "quantifier": "all pairs of message sequences", "why_tests_cant": "injectivity over all sequences", "anchors": ["src/tp-dkg.c:update_transcript"]}
{"id": "C41", "title": "Peer-to-peer messages are routed unchanged to their addressee", "statement": "In the relay steps the bytes peer i receives at position j are exactly the bytes peer j submitted at position i.", "quantifier": "all n, all payloads, all pairs (i,j)", "why_tests_cant": "symbolic in n and contents", "anchors": ["src/tp-dkg.c:tp_step68_handler", "src/tp-dkg.c:tp_step14_handler", "src/tp-dkg.c:tpdkg_tp_peer_msg"]}
{"id": "C42", "title": "A peer outputs a key share only after the trusted party's final OK", "statement": "Along every history a peer's output share changes only in a successful final step, in which an accepted trusted-party message carried OK, and then it is the peer's index with the sum of the received shares (for received values below 2^255).", "quantifier": "all histories of inputs", "why_tests_cant": "unbounded adversarial histories", "anchors": ["src/tp-dkg.c:peer_step21_handler", "src/tp-dkg.c:tpdkg_peer_next"]}
{"id": "C43", "title": "Any complaint aborts the key generation everywhere", "statement": "If any complaint was broadcast then no peer continues towards a key share: every peer that processed the broadcast is done after its reveal step, and the trusted party fails.", "quantifier": "all complaint sets", "why_tests_cant": "all complaint graphs", "anchors": ["src/tp-dkg.c:peer_step17a_handler", "src/tp-dkg.c:tp_step18_handler", "docs/tp-dkg.txt"]}
{"id": "C44", "title": "An honest run succeeds and produces a usable shared key", "statement": "For all n, t, keys, randomness and clock readings within the freshness window, a run in which the trusted party and all n peers follow the code and the network delivers messages ends with success everywhere, no cheaters, and key shares any t of which reconstruct one key.", "quantifier": "all n and t, all randomness", "why_tests_cant": "the parameter space and randomness are unbounded for tests", "anchors": ["src/tp-dkg.c:tpdkg_tp_next", "src/tp-dkg.c:tpdkg_peer_next"]}
{"id": "C45", "title": "Trusted party and peers accept the same parameters", "statement": "Every (n,t) the trusted party starts with is acceptable to the peers it invites, and satisfies 2<=t<n.", "quantifier": "all 8-bit n and t", "why_tests_cant": "boundary over all pairs; tests use a few", "anchors": ["src/tp-dkg.c:tpdkg_start_tp", "src/tp-dkg.c:tpdkg_start_peer"]}
{"id": "C46", "title": "Trusted party success means every peer confirmed", "statement": "If the trusted party's final step succeeds then every peer's acknowledgement said OK.", "quantifier": "all acknowledgement contents", "why_tests_cant": "adversarial contents", "anchors": ["src/tp-dkg.c:tp_step22_handler"]}
{"id": "C47", "title": "A malicious dealer cannot suppress complaints about bad shares", "statement": "If a peer received from some dealer a share that does not match the dealer's commitments, the complaint message it sends names that dealer.", "quantifier": "all commitment and share contents of all dealers", "why_tests_cant": "adversarial commitments from one dealer interact with the check of another", "anchors": ["src/tp-dkg.c:peer_step15_handler", "src/dkg.c:dkg_verify_commitments"]}
{"id": "C48", "title": "Dispatch slices are in bounds and cover the output", "statement": "For every step after which messages are dispatched, tpdkg_tp_peer_msg returns for every peer a slice inside the output buffer with the length the peer expects, and distinct peers' personalised slices do not overlap.", "quantifier": "all n, t, steps, peers", "why_tests_cant": "symbolic in n and t", "anchors": ["src/tp-dkg.c:tpdkg_tp_peer_msg"]}
{"id": "C49", "title": "Logging does not influence the protocol", "statement": "Enabling or disabling the log stream changes neither the state, the output nor the return code of any step.", "quantifier": "all states and inputs", "why_tests_cant": "a two-run property over all inputs", "anchors": ["src/tp-dkg.c:tpdkg_tp_next", "src/tp-dkg.c:tp_step68_handler"]}
{"id": "C50", "title": "A recorded cheater excludes success", "statement": "Along every history of the trusted party, once a cheater has been recorded no later call of the next function returns success, and a call (other than the first, which processes no messages) that returns success leaves no cheater recorded.", "quantifier": "all histories and inputs", "why_tests_cant": "adversarial histories of unbounded length", "anchors": ["src/tp-dkg.c:tpdkg_tp_next", "src/tp-dkg.c:add_cheater"]}
{"id": "C51", "title": "Session keys are vouched for by the long-term keys", "statement": "If the trusted party accepts the message with the session keys then, for every peer, that peer's message carries a valid signature under the long-term key registered for it and a valid header signature under the announced session key, which is the key the trusted party then uses for that peer.", "quantifier": "all states, inputs, peers", "why_tests_cant": "adversarial messages", "anchors": ["src/tp-dkg.c:tp_step4_handler"]}
{"id": "C52", "title": "Everybody uses the same session keys", "statement": "A peer that accepts the broadcast session keys holds exactly the list of keys the trusted party holds.", "quantifier": "all n, t, contents accepted by both sides", "why_tests_cant": "two-party agreement over all message contents", "anchors": ["src/tp-dkg.c:tp_step4_handler", "src/tp-dkg.c:peer_step5_handler"]}
{"id": "C53", "title": "Everybody uses the same commitments", "statement": "A peer that accepts the broadcast commitments holds exactly the commitments the trusted party holds, for every dealer and every coefficient.", "quantifier": "all n, t, contents accepted by both sides", "why_tests_cant": "two-party agreement over all message contents", "anchors": ["src/tp-dkg.c:tp_step14_handler", "src/tp-dkg.c:peer_step15_handler"]}
{"id": "C54", "title": "Python: shares reconstruct the secret", "statement": "pyoprf.create_shares(secret, n, t) returns n shares for every n and t with 2 <= t <= n, and pyoprf.dkg_reconstruct gives the secret back from any t or more different ones.", "quantifier": "all secrets, n, t, polynomials and subsets of shares", "why_tests_cant": "unbounded parameters; byte truncation shows only at 255 and above", "anchors": ["python/pyoprf/__init__.py:create_shares", "python/pyoprf/__init__.py:dkg_reconstruct", "src/toprf.c:toprf_create_shares"]}
{"id": "C55", "title": "Python: the OPRF of RFC 9497", "statement": "blind, evaluate, unblind and finalize in sequence compute the output of RFC 9497 for every input, key and blinding factor.", "quantifier": "all inputs, keys and random values", "why_tests_cant": "universal over inputs of any length and over the secret values", "anchors": ["python/pyoprf/__init__.py:blind", "python/pyoprf/__init__.py:evaluate", "python/pyoprf/__init__.py:unblind", "python/pyoprf/__init__.py:finalize", "python/pyoprf/__init__.py:unblind_finalize"]}
{"id": "C56", "title": "Python: no call is undefined", "statement": "No function of the bindings, called with byte strings and integers, reads or writes outside the memory it was given or is otherwise undefined: it returns a value or raises an exception.", "quantifier": "all functions and all byte string and integer arguments", "why_tests_cant": "memory errors need not show in a test; the arguments are unbounded", "anchors": ["python/pyoprf/__init__.py:create_shares", "python/pyoprf/__init__.py:dkg_start", "python/pyoprf/__init__.py:dkg_verify_commitments", "python/pyoprf/__init__.py:dkg_finish", "python/pyoprf/__init__.py:dkg_reconstruct", "python/pyoprf/__init__.py:thresholdmult", "python/pyoprf/__init__.py:threshold_evaluate", "python/pyoprf/__init__.py:threshold_combine", "python/pyoprf/__init__.py:_3hashtdh"]}
{"id": "C57", "title": "Python: dealers that cheated are returned", "statement": "pyoprf.dkg_verify_commitments returns the list of the dealers whose share does not match their commitments.", "quantifier": "all n, t, commitments and shares", "why_tests_cant": "adversarial commitments and shares", "anchors": ["python/pyoprf/__init__.py:dkg_verify_commitments", "src/dkg.c:dkg_verify_commitments"]}
{"id": "C58", "title": "Python: sessions of the distributed key generation", "statement": "A session started with tpdkg_start_tp is one for the n and t given; no later call on it or on a peer started with tpdkg_peer_start is undefined, whatever messages are passed in whatever order; after an exception the session is either unchanged or over.", "quantifier": "all parameters, all histories of calls, messages, clocks and random values", "why_tests_cant": "adversarial histories of unbounded length; undefined behaviour need not show", "anchors": ["python/pyoprf/__init__.py:tpdkg_start_tp", "python/pyoprf/__init__.py:tpdkg_tp_next", "python/pyoprf/__init__.py:tpdkg_tp_peer_msg", "python/pyoprf/__init__.py:tpdkg_peer_start", "python/pyoprf/__init__.py:tpdkg_peer_next", "python/pyoprf/__init__.py:tpdkg_peer_free"]}
{"id": "C59", "title": "Multiplexer: answers belong to their peers", "statement": "Entry i of the list returned by Multiplexer.gather is what peer i answered to the current request, in whatever order and pieces the answers arrive and whatever the other peers send.", "quantifier": "all peers, streams, segmentations, results of select and pending, and sequences of calls", "why_tests_cant": "all schedules of arrival", "anchors": ["python/pyoprf/multiplexer.py:Multiplexer.gather", "python/pyoprf/multiplexer.py:Peer.read"]}
{"id": "C60", "title": "Multiplexer: enough answers", "statement": "gather(len, n) returns n answers of the expected length whenever n peers give them, whatever the other peers do.", "quantifier": "all peers, streams and schedules", "why_tests_cant": "all schedules of arrival and all behaviours of faulty peers", "anchors": ["python/pyoprf/multiplexer.py:Multiplexer.gather", "python/pyoprf/multiplexer.py:Peer.read"]}
{"id": "C61", "title": "Python: threshold evaluation equals evaluation", "statement": "The responses of any t servers, computed with evaluate, threshold_evaluate or 3HashTDH from shares made by create_shares, combine to the evaluation under the shared key; calls with fewer than two responses are refused.", "quantifier": "all secrets, n, t, subsets of servers, orders of responses and blinded inputs", "why_tests_cant": "universal over subsets and secret values", "anchors": ["python/pyoprf/__init__.py:thresholdmult", "python/pyoprf/__init__.py:threshold_evaluate", "python/pyoprf/__init__.py:threshold_combine", "python/pyoprf/__init__.py:_3hashtdh", "python/pyoprf/__init__.py:create_shares"]}
{"id": "C62", "title": "Python: updating the key", "statement": "After the key is multiplied by a random scalar delta, multiplying an old unblinded result by delta gives the result of a new evaluation of the same input under the new key (the key update shown in the Python tests).", "quantifier": "all inputs, keys, deltas and blinding factors", "why_tests_cant": "universal over secret values", "anchors": ["python/pyoprf/__init__.py:keygen", "python/pyoprf/__init__.py:blind", "python/pyoprf/__init__.py:evaluate", "python/pyoprf/__init__.py:unblind", "python/tests/test.py"]}
{"id": "C63", "title": "Python: distributed key generation", "statement": "If n parties call dkg_start, exchange what it returns, and call dkg_verify_commitments and dkg_finish, then nobody complains and any t of the resulting shares reconstruct the sum of the secrets drawn.", "quantifier": "all n, t, random coefficients and subsets of at least t shares", "why_tests_cant": "unbounded numbers of parties and universal over the random values", "anchors": ["python/pyoprf/__init__.py:dkg_start", "python/pyoprf/__init__.py:dkg_verify_commitments", "python/pyoprf/__init__.py:dkg_finish", "python/pyoprf/__init__.py:dkg_reconstruct"]}
{"id": "C64", "title": "Multiplexer: connections", "statement": "A peer of type SSL or TCP can be connected; while it is, reads return the bytes it sends, in order and without loss; the peer was authenticated; and a closed peer neither delivers nor takes anything until it is connected again.", "quantifier": "all histories of connect, read, send and close, and all behaviours of the network", "why_tests_cant": "unbounded histories and all segmentations and interruptions", "anchors": ["python/pyoprf/multiplexer.py:Peer.connect", "python/pyoprf/multiplexer.py:Peer.read", "python/pyoprf/multiplexer.py:Peer.send", "python/pyoprf/multiplexer.py:Peer.close"]}
{"id": "C65", "title": "Noise: conformance", "statement": "Whatever sequence of send, receive and hash requests is made, a session answers each as the Noise_XK_25519_ChaChaPoly_BLAKE2b protocol of the Noise specification prescribes, with the documented policies: sending out of turn ends the session, a responder accepts only initiators registered at its device.", "quantifier": "all devices, keys, prologues, payloads, incoming bytes and sequences of requests, both roles", "why_tests_cant": "unbounded sequences of requests and universal over secret values and attacker-chosen messages", "anchors": ["src/noise_xk/src/XK.c:Noise_XK_session_write", "src/noise_xk/src/XK.c:Noise_XK_session_read", "src/noise_xk/src/XK.c:Noise_XK_session_create_initiator", "src/noise_xk/src/XK.c:Noise_XK_session_create_responder", "src/noise_xk/src/Noise_XK.c:Noise_XK_kdf", "src/noise_xk/src/Noise_XK.c:Noise_XK_mix_hash"]}
{"id": "C66", "title": "Noise: honest handshake and channel", "statement": "Two devices with the same prologue that have each other's static keys registered complete the handshake, receive the payloads of all three handshake messages, agree on the handshake hash and on each other's identity; from then on every message sent in either direction, in any interleaving, is received unchanged and in order.", "quantifier": "all keys, payloads, and interleavings of up to 2^64-1 sends and deliveries", "why_tests_cant": "unbounded interleavings of two independent streams", "anchors": ["src/noise_xk/src/XK.c:Noise_XK_session_write", "src/noise_xk/src/XK.c:Noise_XK_session_read", "src/noise_xk/src/XK.c:Noise_XK_pack_message_with_conf_level", "src/noise_xk/src/XK.c:Noise_XK_unpack_message_with_auth_level"]}
{"id": "C67", "title": "Noise: identity of the peer", "statement": "A responder reports no peer, neither an identifier nor a name, before the handshake is complete; afterwards it reports the registered peer whose static key was authenticated in the third message. An initiator reports the peer the session was created for.", "quantifier": "all devices, registries and histories of a session", "why_tests_cant": "all histories including attacker-chosen messages", "anchors": ["src/noise_xk/src/XK.c:Noise_XK_session_get_peer_id", "src/noise_xk/src/XK.c:Noise_XK_session_get_peer_info", "src/noise_xk/src/XK.c:Noise_XK_session_read", "src/noise_xk/src/XK.c:Noise_XK_device_lookup_peer_by_static"]}
{"id": "C68", "title": "Noise: failed requests", "statement": "A failed request delivers nothing. It either leaves the session as it was or ends it for good; a session past the handshake is never ended; during the handshake only a failed Diffie-Hellman, a message that does not decrypt, or an unregistered initiator ends it, while a request made out of turn is refused without harm.", "quantifier": "all sessions reachable by any history, all requests", "why_tests_cant": "all histories and all attacker-chosen messages", "anchors": ["src/noise_xk/src/XK.c:Noise_XK_session_write", "src/noise_xk/src/XK.c:Noise_XK_session_read", "src/noise_xk/src/XK.c:Noise_XK_session_get_status"]}
{"id": "C69", "title": "Noise: nonces and damaged messages", "statement": "After the handshake the k-th message sent and the k-th message accepted use nonce k, so no nonce is ever used twice under a key; after 2^64-1 messages sending is refused. Damaged, repeated, or reordered messages are refused and leave no trace: later messages are handled as if they had not arrived.", "quantifier": "all histories of a session", "why_tests_cant": "unbounded histories; the counter limit cannot be reached by tests", "anchors": ["src/noise_xk/src/XK.c:Noise_XK_session_write", "src/noise_xk/src/XK.c:Noise_XK_session_read"]}
{"id": "C70", "title": "Noise: registry of peers", "statement": "After any history, a peer is found by identifier or by static key exactly if it was added or restored and not removed since; identifiers are 1, 2, 3, ... in order of addition, never 0 and never reused, also not after removals; adding fails exactly if the key is registered or the identifiers are exhausted.", "quantifier": "all histories of adding, restoring, removing and creating sessions", "why_tests_cant": "unbounded histories", "anchors": ["src/noise_xk/src/XK.c:Noise_XK_device_add_peer", "src/noise_xk/src/XK.c:Noise_XK_device_remove_peer", "src/noise_xk/src/XK.c:Noise_XK_device_lookup_peer_by_id", "src/noise_xk/src/XK.c:Noise_XK_device_lookup_peer_by_static", "src/noise_xk/src/XK.c:Noise_XK_deserialize_peer_secret"]}
{"id": "C71", "title": "Noise: stored secrets", "statement": "A device or peer secret that was serialized and is restored under the same key and name gives the same device, or the same peer as adding it directly; a restored peer secret was authenticated under the key of the device and bound to the name.", "quantifier": "all devices, peers, names, keys and nonces", "why_tests_cant": "universal over secret values", "anchors": ["src/noise_xk/src/XK.c:Noise_XK_device_create_from_secret", "src/noise_xk/src/XK.c:Noise_XK_serialize_device_secret", "src/noise_xk/src/XK.c:Noise_XK_serialize_peer_secret", "src/noise_xk/src/XK.c:Noise_XK_deserialize_peer_secret"]}
{"id": "C72", "title": "Noise: lengths and security levels", "statement": "The messages of a session are longer than their payloads by 48, 48, 64 and then 16 bytes. The payload of the k-th message is sent only if the confidentiality the Noise specification gives it meets the level asked for, otherwise the request is refused without effect; it is received with the authentication level of the specification, and unpacking returns it exactly if that level meets the level asked for.", "quantifier": "all histories, payloads and levels", "why_tests_cant": "unbounded histories and all combinations of levels", "anchors": ["src/noise_xk/src/XK.c:Noise_XK_session_write", "src/noise_xk/src/XK.c:Noise_XK_session_read", "src/noise_xk/src/XK.c:Noise_XK_pack_message_with_conf_level", "src/noise_xk/src/XK.c:Noise_XK_unpack_message_with_auth_level"]}
{"id": "C73", "title": "The DKG over the shipped Noise library", "statement": "The channels that the DKG with a trusted party gets from the Noise XK library shipped with it have the properties it relies on: handshakes between peers that registered each other's keys succeed with messages of the expected sizes, shares sent are received unchanged, both ends export the same key, and this key opens the ciphertext, which is what resolves complaints. So a whole run of honest parties over this library succeeds and gives a usable shared key.", "quantifier": "all keys, random values, peers and payloads; all parameters and schedules of honest runs", "why_tests_cant": "composition of four programs over all keys and schedules", "anchors": ["src/tp-dkg.c:tpdkg_init_noise_handshake", "src/tp-dkg.c:tpdkg_respond_noise_handshake", "src/tp-dkg.c:tpdkg_finish_noise_handshake", "src/tp-dkg.c:tpdkg_noise_encrypt", "src/tp-dkg.c:tpdkg_noise_decrypt", "src/noise_xk/src/XK.c:Noise_XK_session_write", "src/noise_xk/src/XK.c:Noise_XK_session_read"]}
{"id": "C74", "title": "Python: Noise sessions deliver", "statement": "An initiator that knows the public key of a responder, and a responder that lists the key of the initiator, can set up a session with the high-level functions if they use the same domain separation tag, and only then; afterwards everything either of them sends is received unchanged and in order, and a call that raises an exception does not harm the session.", "quantifier": "all keys, names, tags, lists of authorized keys, schedules and payloads", "why_tests_cant": "composition of two programs over all schedules; the layout of return values and long inputs are outside tests", "anchors": ["python/pyoprf/noisexk.py:initiator_session", "python/pyoprf/noisexk.py:responder_session", "python/pyoprf/noisexk.py:initiator_session_complete", "python/pyoprf/noisexk.py:send_msg", "python/pyoprf/noisexk.py:read_msg", "python/pyoprf/noisexk.py:create_device"]}
{"id": "C75", "title": "Python: Noise failures raise", "statement": "Whatever keys, names, messages and order of calls are given to the Noise functions of the Python package, the outcome is a value or an exception, never undefined behaviour of the C library.", "quantifier": "all arguments, including messages of an attacker, and all sequences of calls", "why_tests_cant": "undefined behaviour may pass tests; all sequences of calls", "anchors": ["python/pyoprf/noisexk.py:initiator_session", "python/pyoprf/noisexk.py:responder_session", "python/pyoprf/noisexk.py:add_peer", "python/pyoprf/noisexk.py:get_peerid", "python/pyoprf/noisexk.py:create_session_initiator", "python/pyoprf/noisexk.py:get_pubkey"]}
{"id": "C76", "title": "Python: a Noise responder knows its peer", "statement": "As soon as a call on a session made by responder_session has succeeded, the peer of the session is one of the authorized keys: get_pubkey on it returns a key of the list that was authenticated in the handshake.", "quantifier": "all keys, lists, messages of an attacker and sequences of calls", "why_tests_cant": "all behaviours of an attacker", "anchors": ["python/pyoprf/noisexk.py:responder_session", "python/pyoprf/noisexk.py:read_msg", "python/pyoprf/noisexk.py:send_msg", "python/pyoprf/noisexk.py:get_pubkey"]}
{"id": "C77", "title": "A falsely accused peer is not blamed", "statement": "If a peer follows the protocol and others complain about it, then the report the trusted party makes for each of these complaints blames the complainer, and no report blames the peer unless it has itself complained about somebody - whatever the other peers send.", "quantifier": "all runs of the peer up to the message with the revealed keys, all states of the trusted party that has received what the peer sent, all messages of the others", "why_tests_cant": "all behaviours of attackers, all sets of complaints", "anchors": ["src/tp-dkg.c:tp_step18_handler", "src/tp-dkg.c:peer_step17a_handler", "src/tp-dkg.c:peer_step13_handler", "src/tp-dkg.c:peer_step911_handler", "src/tp-dkg.h:tpdkg_tp_next"]}
{"id": "C78", "title": "A peer's long-term key is used once", "statement": "The first successful call of a peer sends its session keys in one message signed by its long-term key, and erases the long-term key from the state; no later call brings it back. If the first call fails, the key stays in the state.", "quantifier": "all peers, environments, inputs and histories of calls", "why_tests_cant": "all histories; a key left in memory has no effect a test sees", "anchors": ["src/tp-dkg.c:peer_step23_handler", "src/tp-dkg.c:tpdkg_peer_next", "src/tp-dkg.h:tpdkg_start_peer"]}
{"id": "C79", "title": "A cheater report says what happened", "statement": "Whatever the peers send, each entry that the trusted party adds to its list of cheaters stands for something that happened in the call that added it (a message from that peer had the stated fault, that peer complained about somebody who does not exist or about the same peer twice, the key it revealed does not open the share, the share fits or does not fit the commitments, ...), and the text tpdkg_cheater_msg prints for the entry is true: it names that fault and these peers.", "quantifier": "all histories of calls of the trusted party on any inputs, all entries, all texts", "why_tests_cant": "reports are printed by hand-written tables of codes in another function than the one that records them; tests look at one or two of the some forty cases", "anchors": ["src/tp-dkg.c:tpdkg_cheater_msg", "src/tp-dkg.c:tpdkg_recv_err", "src/tp-dkg.c:tp_step18_handler", "src/tp-dkg.c:tp_step16_handler", "src/tp-dkg.c:add_cheater"]}
{"id": "C80", "title": "A key generation that ends well leaves honest peers with shares of one key", "statement": "If all calls of the trusted party and all calls of the peers that follow the protocol return success, then these peers hold shares of one key: any t of them reconstruct the same secret, the sum of the secrets of all dealers, the peer's own among them - whatever the other peers send.", "quantifier": "all numbers of peers and thresholds, all sets of peers that follow the protocol and were connected to the trusted party, all messages of the others, all clocks and random values", "why_tests_cant": "all behaviours of attackers; inconsistent shares are noticed only when the key is used", "anchors": ["src/tp-dkg.c:tpdkg_tp_next", "src/tp-dkg.c:tpdkg_peer_next", "src/tp-dkg.c:peer_step15_handler", "src/tp-dkg.c:tp_step16_handler", "src/tp-dkg.c:peer_step21_handler", "src/dkg.c:dkg_verify_commitments", "src/dkg.c:dkg_finish"]}
{"id": "C81", "title": "Generated keys compute the OPRF", "statement": "After a key generation with a trusted party, every set of at least t of the peers that followed the protocol computes the OPRF of RFC 9497 with the key that is the sum of the dealers' secrets: for every input and every blind the client's blinding succeeds, every server with a non-zero share answers, and combining the answers (toprf_thresholdmult, toprf_thresholdcombine, or the 3hashTDH answers with a sharing of zero), unblinding and finalizing yields the value of that function. Conditions: all follow the protocol; or the calls of the trusted party and of these peers succeed, the published commitments but the first of each dealer are points other than the identity, and the received share values are below 2^255. The key is not zero.", "quantifier": "all n, t, peers, sets of servers, inputs, blinds, orders of answers; in the second case all messages of the other peers", "why_tests_cant": "connects four source files; holds for all sets of servers and all behaviours of the others", "anchors": ["src/tp-dkg.c:tpdkg_peer_next", "src/tp-dkg.c:tpdkg_tp_next", "src/toprf.c:toprf_thresholdmult", "src/toprf.c:toprf_thresholdcombine", "src/toprf.c:toprf_Evaluate", "src/toprf.c:toprf_3hashtdh", "src/oprf.c:oprf_Blind", "src/oprf.c:oprf_Evaluate", "src/oprf.c:oprf_Unblind", "src/oprf.c:oprf_Finalize"]}
{"id": "C82", "title": "A key generation through the Python bindings gives every peer a share of one key", "statement": "The program of python/examples/tpdkg_test.py - tpdkg_start_tp, tpdkg_peer_start for each peer, then tpdkg_tp_next, tpdkg_tp_peer_msg and tpdkg_peer_next in turn until both sides are done - ends without an exception for any number of peers from 3 to 128 and any threshold from 2 to one less, with nobody accused; the peers' shares are a sharing of the sum of the secrets they drew, its checks hold for every set of t or more peers and not only the three it tries, and every peer's memory can be freed.", "quantifier": "all n, t, freshness windows, keys, clocks good enough for every message to be fresh, random values, aligned addresses, sets of peers", "why_tests_cant": "the example runs one size and three sets of peers", "anchors": ["python/examples/tpdkg_test.py", "python/pyoprf/__init__.py:tpdkg_start_tp", "python/pyoprf/__init__.py:tpdkg_peer_start", "python/pyoprf/__init__.py:tpdkg_tp_next", "python/pyoprf/__init__.py:tpdkg_peer_next", "python/pyoprf/__init__.py:tpdkg_tp_peer_msg", "python/pyoprf/__init__.py:tpdkg_peer_free"]}
{"id": "C83", "title": "A server that answers with a known key makes the output a plain hash of the input, and nothing tells the client", "statement": "For every input and blind, the client of a server that evaluates with key 1 finishes without an error; its output is explained by its input without any key, and by no other candidate short of a SHA-512 collision. A guess answers 0 exactly if the output is the hash of the guess, and -1 otherwise. With any key other than 1 no guess made without the key succeeds short of a collision. (The collision is named: the two strings hashed.)", "quantifier": "all inputs and guesses of up to 255 bytes whose hash is not the identity, all blinds, all keys", "why_tests_cant": "all inputs, guesses and keys; the demonstration program tries one password and two guesses", "anchors": ["misc/attack.c:tamper", "misc/attack.c:guess", "misc/attack.c:test", "src/oprf.c:oprf_Evaluate", "src/oprf.c:oprf_Unblind", "src/oprf.c:oprf_Finalize"]}
{"id": "C84", "title": "The 3hashTDH example program: masked answers combine to the evaluation with the key itself", "statement": "In python/examples/3hashtdh.py each server adds to its answer its share of zero times a point derived from the session. For any number of servers and threshold and everything drawn, any t or more of the answers, in any order, combine to what the key itself gives (or, if one answer is the identity, raise): the assertion at the end never fails. It is reached, with the evaluation of the key at the hashed input as both results, unless a share, the session point or an answer is zero.", "quantifier": "all n, t, keys, coefficients, blinds, inputs, session ids, sets and orders of answers", "why_tests_cant": "the example runs 5 servers, threshold 3 and one set of answers", "anchors": ["python/examples/3hashtdh.py", "python/pyoprf/__init__.py:evaluate", "python/pyoprf/__init__.py:thresholdmult", "python/pyoprf/__init__.py:create_shares", "python/pyoprf/__init__.py:blind", "python/pyoprf/__init__.py:unblind"]}
{"id": "C85", "title": "A peer that follows the protocol is blamed only for a complaint that was not answered", "statement": "Whatever the other peers send and however far the session gets, every entry in the trusted party's list of cheaters that blames a peer which follows the protocol, gets what the trusted party writes for it and whose messages arrive in time, concerns a complaint that this peer made about another one and that the accused did not answer, unless the accused answered with a second key that gives the same authenticator as the key the peer had used. No other entry ever blames it: not for its messages, its commitments, the shares it dealt, the keys it revealed or the transcript hash.", "quantifier": "all n, t, sessions of up to nine calls that succeed except perhaps the last, all messages of the other peers, all clocks and random values", "why_tests_cant": "all behaviours of attackers; a false accusation needs a particular combination of other peers' messages", "anchors": ["src/tp-dkg.c:tpdkg_tp_next", "src/tp-dkg.c:tpdkg_peer_next", "src/tp-dkg.c:tp_step18_handler", "src/tp-dkg.c:tp_step16_handler", "src/tp-dkg.c:tp_step20_handler", "src/tp-dkg.c:peer_step17a_handler", "src/tp-dkg.c:add_cheater"]}
{"id": "C86", "title": "Masked answers tell nothing but the result, and a mask belongs to one session", "statement": "An answer of toprf_3hashtdh is the share of the key times the blinded element plus the share of zero times a point derived from the session id and the blinded element; two sessions with another id (up to 65535 bytes) or another element have another point, short of a collision of one of the two hashes on the named strings. The answers of all servers fit every sharing of the key equally well: for every other sharing of the same key there is exactly one sharing of zero with the same answers, so whoever sees all answers learns the result and nothing more about the shares.", "quantifier": "all keys, sharings, sharings of zero, numbers of servers and thresholds, blinded elements, session ids", "why_tests_cant": "secrecy speaks about all the values that could have been drawn, not about one run", "anchors": ["src/toprf.c:toprf_3hashtdh", "src/toprf.c:toprf_create_shares"]}
{"id": "C87", "title": "Fewer than t of the shares handed out tell nothing, and commitments fix the polynomial", "statement": "The shares that a dealer of a key generation (dkg_start) or a party of the multiplication (toprf_mpc_mul_start) hands to any t-1 peers fit every possible secret: exactly one choice of the random values gives them. Two dealers' polynomials with the same commitments are the same.", "quantifier": "all n, t, secrets, factors, sets of t-1 shares", "why_tests_cant": "secrecy speaks about all the values that could have been drawn, not about one run", "anchors": ["src/dkg.c:dkg_start", "src/mpmult.c:toprf_mpc_mul_start", "src/toprf.c:toprf_create_shares"]}
{"id": "C88", "title": "A peer gives away the key of a session only to answer a complaint", "statement": "After a broadcast of complaints a peer that follows the protocol sends nothing, its transcript, or the keys of exactly those of its sessions whose other end accuses it in that broadcast, each key once and with the number of the accuser, in a message signed by it.", "quantifier": "all sessions, complaints and inputs that a peer may read", "why_tests_cant": "a single revealed key too many exposes a share; what is revealed depends on everything the peer has read", "anchors": ["src/tp-dkg.c:peer_step17", "src/tp-dkg.c:peer_step17a", "src/tp-dkg.c:peer_step15"]}
{"id": "C89", "title": "Python: the list of cheaters", "statement": "After any history pyoprf.tpdkg_get_cheaters returns the set of the peers that the trusted party's reports name, each one of the peers 1..n of the session, and the reports themselves: one for each recorded cheater, in the order in which they were recorded, with the whole text that tpdkg_cheater_msg composes; it raises no exception and reads no buffer out of bounds.", "quantifier": "all sessions started from Python, histories of inputs, recorded cheaters", "why_tests_cant": "the reports depend on everything that the trusted party read; a test sees only the few ways of cheating that it plays", "anchors": ["python/pyoprf/__init__.py:tpdkg_get_cheaters", "src/tp-dkg.c:tpdkg_cheater_msg", "src/tp-dkg.c:tpdkg_recv_err"]}
{"id": "C90", "title": "The product of two shared keys is a shared key", "statement": "If at least 2t-1 holders of shares of two keys with threshold t (from toprf_create_shares, or from two key generations with a trusted party) call toprf_mpc_mul_start and every recipient calls toprf_mpc_mul_finish on what it was sent, then the recipients hold exactly what toprf_create_shares would return for the product of the keys and some coefficients: any quorum of them computes the OPRF with the product as the key in every way the library offers, and the result can be multiplied again.", "quantifier": "all keys, thresholds, sets of dealers and recipients, random values; two sessions of the key generation, honest or with malicious other peers", "why_tests_cant": "a test multiplies two keys once; the statement is about all sharings and all quorums", "anchors": ["src/mpmult.c:toprf_mpc_mul_start", "src/mpmult.c:toprf_mpc_mul_finish", "src/toprf.c:toprf_create_shares", "src/tp-dkg.c:tpdkg_peer_next"]}
{"id": "C91", "title": "Noise: what a session says about itself", "statement": "The status of a session is transport once three messages were exchanged and before that tells whose turn it is; the maximum of security is reported exactly when the handshake is over and, on the initiator's side, a first message was received after it; the length announced for the next message is the length of the message that is then written, and is refused exactly for payloads that do not fit; the sessions of a device have different identifiers, which never change.", "quantifier": "all devices, sessions and histories of requests to them, successful or not", "why_tests_cant": "the answers depend on the whole history of the session; a test queries a session in the few states it goes through", "anchors": ["src/noise_xk/src/XK.c:Noise_XK_session_get_status", "src/noise_xk/src/XK.c:Noise_XK_session_reached_max_security", "src/noise_xk/src/XK.c:Noise_XK_session_compute_next_message_len", "src/noise_xk/src/XK.c:Noise_XK_session_get_id"]}
{"id": "C92", "title": "Python: a conversation with all peers", "statement": "If pyoprf.multiplexer.Multiplexer is connected, sends requests to all peers with broadcast, collects the answers of all with gather after each, and is closed, and no call raises, then every peer received all requests in order and once each, its answers are in order what its connection delivered, and afterwards all connections are closed. connect and broadcast that raise have served the peers before the first one that failed, and none after it.", "quantifier": "all numbers of peers, requests, streams and orders of arrival, failures of any connection", "why_tests_cant": "the order in which answers arrive and connections fail cannot be enumerated", "anchors": ["python/pyoprf/multiplexer.py:Multiplexer"]}
{"id": "C93", "title": "Every violation is reported", "statement": "If a call of the trusted party, with buffers of the announced sizes, finds a fault, tpdkg_cheater_msg can name those responsible: every message of the call that is not as it must be (length, number, sender, recipient, session, time, signature of the session key and, where there is one, of the long-term key) leads to an entry naming its sender, and so does every complaint about a peer that does not exist or is repeated, every digest of the transcript that differs; every other complaint is registered and, when it is resolved, leads to an entry naming both peers. A call that fails has named somebody.", "quantifier": "all histories of calls, inputs, clocks, numbers of peers and positions of the faults, as long as the list of cheaters has room", "why_tests_cant": "which messages are faulty, and how, are choices of the adversary; a test plays a few of them", "anchors": ["src/tp-dkg.c:tpdkg_tp_next", "src/tp-dkg.c:tpdkg_cheater_msg", "docs/tp-dkg.txt"]}
{"id": "C94", "title": "The holders of the shares stay anonymous to each other", "statement": "Peers authenticate with long-term keys to the trusted party only. What the peers get to see does not depend on these keys: replace the long-term keys of the peers and the corresponding public keys known to the trusted party by others, and the trusted party sends the same messages, returns the same codes and reports the same cheaters, the peers send the same messages except for the signature of the first one, which goes to the trusted party, and end in the same states with the same shares.", "quantifier": "Every number of peers and threshold, all old and new long-term keys, all inputs and histories of the trusted party and of a peer, and all sessions (clocks, random choices, failures included).", "why_tests_cant": "It compares two executions; a test sees one at a time, and would have to try all pairs of keys to exclude that some byte depends on them.", "anchors": ["src/tp-dkg.c: tp_step4_handler", "src/tp-dkg.c: peer_step23_handler", "src/tp-dkg.c: tpdkg_tp_next", "src/tp-dkg.c: tpdkg_tp_peer_msg", "docs/tp-dkg.txt"]}
{"id": "C95", "title": "Secrets are locked in memory while used, and wiped", "statement": "While a function of the library computes with a password, a blind or a key, the temporaries that hold secrets are in memory that cannot be swapped out; if that memory cannot be locked the call fails without writing anything; when a call returns, in whatever way, nothing secret is left in its temporaries, no memory stays locked that was not locked before, and locks of the caller are untouched.", "quantifier": "every input, every outcome of the memory locks and of the computation, every placement of the temporaries on pages, every set of pages locked before", "why_tests_cant": "What remains in dead stack memory and which pages are locked is invisible to a caller's assertions and depends on where the compiler places the buffers and on locks that fail rarely.", "anchors": ["src/oprf.c: oprf_Blind", "src/oprf.c: voprf_hash_to_group", "src/oprf.c: expand_message_xmd", "src/oprf.c: oprf_Unblind", "src/oprf.c: oprf_Finalize", "src/dkg.c: dkg_start", "src/toprf.c: toprf_create_shares"]}
{"id": "C96", "title": "The Noise library frees its memory once, completely, and wipes keys", "statement": "A program that passes only devices, sessions and messages that it has not freed, and frees a device after its sessions, never makes the Noise library use a freed block or free one twice, whatever the messages are and wherever a handshake fails. When the program has freed everything it was given, nothing remains allocated. Private keys and session keys are overwritten before the memory is returned. (A program that frees a device before its sessions would be expected to work as long as it does not create sessions from it.)", "quantifier": "every sequence of calls of the library, any number of devices, peers and sessions, all messages, names and keys", "why_tests_cant": "Leaks and uses of freed memory depend on the exact sequence of calls, on which message fails at which step and on the order in which objects are freed; a test under a sanitizer sees the sequences it tries.", "anchors": ["src/noise_xk/src/XK.c:Noise_XK_device_create", "src/noise_xk/src/XK.c:Noise_XK_device_free", "src/noise_xk/src/XK.c:Noise_XK_device_remove_peer", "src/noise_xk/src/XK.c:Noise_XK_session_free", "src/noise_xk/src/XK.c:Noise_XK_session_write", "src/noise_xk/src/XK.c:Noise_XK_session_read", "src/noise_xk/src/XK.c:Noise_XK_encap_message_p_free"]}
{"id": "C97", "title": "Wrong and repeated responses do not pass for right ones", "statement": "A client that combines the responses of a quorum learns whether the outcome is right: if one of the responses is not what the server's share gives, or if a response is counted twice, the combining call reports it, and no single server can choose the outcome.", "quantifier": "all secrets, sharings, quorums, responses and positions of the wrong or repeated response", "why_tests_cant": "whether errors cancel is a statement about all group elements and all Lagrange weights; a test tries a few wrong responses", "anchors": ["src/toprf.c: toprf_thresholdmult", "src/toprf.c: toprf_thresholdcombine", "src/toprf.c: coeff"]}
{"id": "C98", "title": "No peer's contribution to a generated key can be cancelled", "statement": "In a distributed key generation that ends well, the key is a one-to-one function of the secret each honest peer drew, whatever the other dealers committed to: with the others' published commitments unchanged, another secret of that peer means another key, by exactly the difference. Nothing the peer sent before it published its own commitments depends on that secret, so nobody can have adapted to it earlier.", "quantifier": "all pairs of sessions that end well with the same commitments of the other dealers; all numbers of peers, thresholds, honest peers among them, behaviours of the others, polynomials, messages and clocks", "why_tests_cant": "it relates the outcomes of two sessions for all secrets and all behaviours of the other peers; a test runs a few sessions with fixed or honest peers", "anchors": ["src/tp-dkg.c: tpdkg_peer_next", "src/tp-dkg.c: peer_step911_handler", "src/tp-dkg.c: tpdkg_tp_next", "src/dkg.c: dkg_start", "src/dkg.c: dkg_finish", "docs/tp-dkg.txt"]}
{"id": "C99", "title": "Key generation over a hostile network", "statement": "The network between the trusted party and the peers may drop, repeat, delay, misdirect and replace messages, and some peers may collude with it, as long as no signature of the trusted party or of an honest peer is forged. If nevertheless all calls of the trusted party and of the honest peers return 0, any two quorums of honest peers hold shares of the same key, which contains the contribution of each of them.", "quantifier": "all contents of all messages at every hop, all numbers of peers and thresholds, all sets of honest peers, polynomials and clocks", "why_tests_cant": "the network has unboundedly many ways to interfere, and the interesting ones leave every return code at 0; a test transports the messages faithfully or breaks one of them", "anchors": ["src/tp-dkg.c: recv_msg", "src/tp-dkg.c: send_msg", "src/tp-dkg.c: tpdkg_tp_next", "src/tp-dkg.c: tpdkg_peer_next", "docs/tp-dkg.txt"]}
{"id": "C100", "title": "Keys handed out by the trusted party", "statement": "After a peer has accepted the broadcast of keys, the session key and the Noise key it uses for another peer are the ones that peer sent, signed with the long-term key the trusted party has registered for it, also if messages were changed on the way; so nobody between the parties can read the shares it deals.", "quantifier": "all contents of the broadcast, all numbers of peers and thresholds, all sets of replaced keys, all keys and devices of the one in between, all polynomials", "why_tests_cant": "the peer accepts, all return codes are 0 and the output looks the same whether the keys are right or not; a test that transports the messages faithfully cannot see the difference", "anchors": ["src/tp-dkg.c: peer_step5_handler", "src/tp-dkg.c: tp_step4_handler", "src/tp-dkg.c: recv_msg", "src/tp-dkg.c: peer_step13_handler", "src/tp-dkg.c: tpdkg_peer_next", "docs/tp-dkg.txt"]}
{"id": "C101", "title": "Nobody on the network ends up with the generated key", "statement": "In a session of honest parties, somebody who sees and can change all messages between them but has none of their keys does not end up with the generated key, unless the change is noticed: some call returns an error, or a cheater or a complaint is recorded.", "quantifier": "all sessions of honest parties (any number of peers, threshold, keys, polynomials, clocks) and all behaviours of somebody on the network that only know the public parameters", "why_tests_cant": "it is about all strategies of somebody in between over a whole session; when one succeeds every return code is 0 and the shares are the ones of an undisturbed session, so no test of the outcome can tell", "anchors": ["src/tp-dkg.c: tpdkg_tp_next", "src/tp-dkg.c: tpdkg_peer_next", "src/tp-dkg.c: recv_msg", "src/tp-dkg.c: send_msg", "src/tp-dkg.c: peer_step5_handler", "src/tp-dkg.c: peer_step19_handler", "src/tp-dkg.c: tp_step20_handler", "src/tests/tp-dkg.c: main"]}
{"id": "C102", "title": "Commitments to a polynomial pass the degree check", "statement": "The check of the degree of committed polynomials accepts every list of 2t+2 commitments to the values of polynomials with t+1 coefficients at 1..2t+2 (no commitment being the identity and the random point not being one of the positions), and accepts other lists for at most t values of the random point.", "quantifier": "all degrees, polynomials, second generators and random points, all contents of uninitialised memory, and for the second half all lists of group elements", "why_tests_cant": "the check is randomised and reads memory that was not initialised; a test draws one point and one polynomial, and the test that ships with it can only show that it fails", "anchors": ["src/tests/mpmult.c: vsps_check", "src/tests/mpmult.c: _vsps", "src/tests/mpmult.c: test_vsps", "src/mpmult.c: invertedVDMmatrix"]}
{"id": "C103", "title": "Which sessions a peer joins", "statement": "A peer joins a session of the distributed key generation at most once, so that nothing of an old session can be replayed to it; only a session announced by the trusted party it means to work with; and with the number of peers and the threshold that party chose.", "quantifier": "all announcements (also replayed, forged or changed ones), all earlier histories of the peer, all clocks, windows, keys and parameters", "why_tests_cant": "a test starts each peer once with the announcement of its own trusted party; that the same bytes, another party's announcement or changed numbers are accepted too shows only when all messages, histories and times are considered", "anchors": ["src/tp-dkg.c: tpdkg_start_peer", "src/tp-dkg.c: tpdkg_start_tp", "src/tp-dkg.c: recv_msg", "src/tp-dkg.c: check_ts", "docs/tp-dkg.txt"]}
{"id": "C104", "title": "Noise: the hash names the handshake", "statement": "The hash that a Noise session reports after its handshake identifies that handshake: two sessions that report the same hash had the same prologue, were made for the same responder key and exchanged the same three messages (unless two different strings that they hashed collide). If one is an initiator's and one a responder's, they are the two ends of one channel: the responder knows the initiator, and the next message of either end is accepted by the other.", "quantifier": "all sessions in either role, all devices, keys and registries, all histories of requests with any mixture of successes and failures, before and after the handshake, and all functions of libsodium that satisfy the stated laws", "why_tests_cant": "it compares all pairs of histories; a test compares the hashes of one pair of matching sessions", "anchors": ["src/noise_xk/src/XK.c: Noise_XK_session_get_hash", "src/noise_xk/src/XK.c: Noise_XK_session_write", "src/noise_xk/src/XK.c: Noise_XK_session_read", "src/noise_xk/src/XK.c: Noise_XK_session_create_initiator", "src/noise_xk/src/XK.c: Noise_XK_session_create_responder", "src/noise_xk/src/Noise_XK.c: Noise_XK_mix_hash"]}
{"id": "C105", "title": "A shared key is changed", "statement": "After any number of key updates (each multiplies the shared key by a shared delta, with any change of the number of servers and of the threshold) the servers hold shares of the old key times all deltas, and any quorum computes the OPRF with that key. A client that kept an unblinded result from before multiplies it by the reported deltas and has exactly what it would get by asking after the updates.", "quantifier": "all keys, deltas, coefficients, numbers of servers, thresholds, sets of at least 2t-1 dealers, all histories of updates, all quorums, inputs and blinds before and after", "why_tests_cant": "it ranges over all histories of updates and compares results of different quorums before and after; the shipped test makes one update of an unshared key", "anchors": ["docs/tp-update.txt", "src/mpmult.c: toprf_mpc_mul_start", "src/mpmult.c: toprf_mpc_mul_finish", "src/dkg.c: dkg_reconstruct", "src/toprf.c: toprf_create_shares", "src/oprf.c: oprf_Unblind", "python/tests/test.py"]}
{"id": "C106", "title": "Taking other servers after each update does not help", "statement": "Somebody who gets hold of one server less than needed of every deployment, of other servers after each key update, learns nothing about the key: everything these servers see, including all that is dealt to them, what they deal themselves and all shares of all deltas, is compatible with every key.", "quantifier": "all keys and candidate keys, all histories of updates (numbers of servers, thresholds, dealers, coefficients), all choices of t-1 servers of each deployment", "why_tests_cant": "it compares what is seen with all other keys and randomness, over all histories; no run of the program shows what an observer cannot know", "anchors": ["docs/tp-update.txt", "src/mpmult.c: toprf_mpc_mul_start", "src/mpmult.c: toprf_mpc_mul_finish", "src/toprf.c: toprf_create_shares"]}
{"id": "C107", "title": "A multiplication by too few servers is noticed", "statement": "If all calls of a multiplication of two shared keys (of a key update) succeed, the new shares are shares of the product.", "quantifier": "all pairs of keys, coefficients, numbers of servers, thresholds and non-empty sets of dealers", "why_tests_cant": "every call returns 0 and the new shares are consistent with each other, so a test sees nothing wrong unless it knows the keys; and it ranges over all sets of dealers", "anchors": ["src/mpmult.c: toprf_mpc_mul_start", "src/mpmult.c: toprf_mpc_mul_finish", "docs/tp-update.txt"]}
{"id": "C108", "title": "A dealer that deals something else is noticed", "statement": "If the servers end a multiplication of two shared keys (a key update) with shares of one key, it is the product of the two keys, even if one dealer dealt something else than the product of its own two shares.", "quantifier": "all pairs of keys, coefficients, numbers of servers, thresholds, sets of at least 2t-1 dealers, all choices of the deviating dealer and of what it adds", "why_tests_cant": "the new shares are consistent with each other whatever the dealer adds; a test runs honest dealers only", "anchors": ["src/mpmult.c: toprf_mpc_mul_start", "src/mpmult.c: toprf_mpc_mul_finish", "docs/tp-update.txt"]}
{"id": "C109", "title": "All quorums hold the same key after an update", "statement": "After a multiplication of two shared keys (a key update) any two quorums of the new servers put together the same key, even if one dealer sent something else than it should to one server.", "quantifier": "all pairs of keys, coefficients, numbers of servers, thresholds, sets of at least 2t-1 dealers, all choices of the deviating dealer, of the server concerned and of what is added, and all quorums", "why_tests_cant": "only quorums with the server concerned are wrong, so a test that happens to use the others sees nothing; and a test runs honest dealers only", "anchors": ["src/mpmult.c: toprf_mpc_mul_start", "src/mpmult.c: toprf_mpc_mul_finish", "src/dkg.c: dkg_reconstruct", "docs/tp-update.txt"]}
{"id": "C110", "title": "A wrong report of delta is noticed", "statement": "If after a key update one server reports a wrong share of delta, a client that brings its kept result up to date with the delta put together still gets what the servers now give, or an error.", "quantifier": "all keys, deltas, coefficients, numbers of servers, thresholds, sets of reporting servers of any size from t on, all choices of the server and of what it adds, all inputs, blinds and quorums before and after", "why_tests_cant": "the delta put together is a scalar like any other and every later call succeeds; a test uses right shares only, and it ranges over all sets of reporting servers", "anchors": ["docs/tp-update.txt", "src/dkg.c: dkg_reconstruct", "src/toprf.c: coeff", "src/oprf.c: oprf_Unblind"]}
{"id": "C111", "title": "A client computes with the key of the servers it asked", "statement": "Whatever shares the asked servers hold (of one sharing, of several, out of date, wrong), in whichever of the three ways they are asked: if the client gets a result, it is the value of the OPRF with the key that dkg_reconstruct would put together from exactly these shares. So one wrong share spoils the result, however many right ones there are besides.", "quantifier": "all sets of shares with different numbers, all inputs that do not hash to the identity, all blinds, the three ways of asking, all orders and groups that satisfy the laws", "why_tests_cant": "it relates two functions of the library on arbitrary shares, not only on those a sharing gives; a test compares them on shares of one key", "anchors": ["src/toprf.c: toprf_thresholdmult", "src/toprf.c: toprf_thresholdcombine", "src/toprf.c: toprf_Evaluate", "src/toprf.c: toprf_3hashtdh", "src/toprf.c: coeff", "src/dkg.c: dkg_reconstruct", "src/oprf.c: oprf_Unblind", "src/oprf.c: oprf_Finalize"]}
{"id": "C112", "title": "Answers of different sessions do not combine", "statement": "If one of the asked servers gives its masked (3hashTDH) answer for another session id than the others, the client does not get the evaluation under the shared key, though the call that combines the answers reports success, unless the hash that derives the masks collides on the two sessions; if that server is not among those asked, the client does get it.", "quantifier": "all keys, numbers of servers, thresholds, quorums of any size, shares of 0, blinded elements, pairs of session ids shorter than 65536 bytes, and all choices of the server", "why_tests_cant": "it ranges over all pairs of sessions and all quorums, and the result is a point like any other; a test uses one session", "anchors": ["src/toprf.c: toprf_3hashtdh", "src/toprf.c: toprf_thresholdmult", "src/toprf.c: coeff"]}
{"id": "C113", "title": "Masks disappear exactly if they are shares of 0", "statement": "Whatever scalars the asked servers hold as shares of the key and of 0: the masked (3hashTDH) answers combine to the evaluation under the key dkg_reconstruct would put together from the first, plus the mask of the session times what it would put together from the second. So the result is right exactly if the latter is 0 (or the mask of the session is the identity), and one wrong share of 0 spoils it, however many right ones there are besides.", "quantifier": "all sets of servers with different numbers, all pairs of scalars they hold, all blinded elements, session ids and groups that satisfy the laws, all choices of the server with a wrong share of 0 and of what it is off by", "why_tests_cant": "it relates two functions of the library on arbitrary shares; the result is a point like any other and the call reports success; a test uses right shares of 0", "anchors": ["src/toprf.c: toprf_3hashtdh", "src/toprf.c: toprf_thresholdmult", "src/toprf.c: coeff", "src/dkg.c: dkg_reconstruct"]}
