# DESIGN: a Rocq (Coq 8.16.1) model of Hyperledger-TWGC/ccs-gm

This document is written before the proofs and kept current as the model grows.

## 1. Approach

* The model is a set of total, computable Gallina functions over `list Z` (bytes),
  `Z` (machine words with explicit `mod 2^k`, big integers without), `option`, records and
  inductive results. Go constructs are mapped as follows.
  * `[]byte` -> `list Z`, with the predicate `bytes l` (every element in `[0,256)`) where it matters.
    Where aliasing/capacity matters (C11, C69) a slice is modelled as a window on a heap array.
  * `uint32/uint64/byte` arithmetic -> `Z` with explicit wrap-around.
  * `*big.Int` -> `Z` (nil is an explicit case where code can produce it).
  * `(T, error)` plus run-time panics -> `res T := Ok t | Err e | Panic`.  An out-of-range index or
    a nil dereference is `Panic`, never a default value.
  * loops -> structural recursion / folds; loops that may not terminate -> fuel, and the theorem says
    what happens for every fuel.
  * methods with pointer receivers -> functions returning the new state.
  * goroutines/atomics (C54) -> a transition system over explicit atomic steps.
* Code outside the repository (AES, HMAC-SHA, RSA, crypto/elliptic NIST curves, encoding/asn1 parser,
  io.Reader, net.Conn) is either modelled from its documented contract (the DER encoder/decoder for the
  few structures used, `big.Int.Bytes/SetBytes/ModInverse`, `copy/append`) or universally quantified as a
  function argument / Section variable that is generalised in the final theorem, with any assumed law
  (e.g. "decryption inverts encryption for the block cipher") an explicit hypothesis.
* Files: `X_spec.v` is a specification written from the standard or the English property and does not
  import the model; `X_model.v` is the model with source citations and no proofs; `X_proofs.v` holds the
  lemmas; `P_*.v` holds only the property theorems (`Theorem Cnn_...`), closed by `exact`, each
  followed by `Print Assumptions`, with `Example`s showing the hypotheses are met.
* Properties the code violates are stated as `..._refuted` theorems (a concrete witness evaluated by the
  kernel), accompanied by the strongest true positive statement (`..._partial` or a precise characterisation).

## 2. Trusted base

* Coq 8.16.1's kernel (including `vm_compute`), and the standard library.
* Axioms: none. See section 5 (what `Print Assumptions` prints for each theorem).
* The reading of the Go source into the model: every model definition cites file and lines.

## 3. Plan per property

Files in `rocq/theories`; every `P_*.v` holds property theorems. "FALSE" means that the code violates the property: there is
a `..._refuted` theorem and the strongest positive statement that holds.

| id | what is modelled | how it is proved |
|----|------------------|------------------|
| C01-C04 | sm3.go, sm3hash.go: digest state, Write, Sum, Reset, checkSum, Block, cF, msgExp; spec = GB/T 32905 (SM3_spec) | state invariant "h = fold of compression over whole blocks, x = remaining bytes"; induction over histories |
| C05-C07 | sm4.go, const.go (all tables, copied by script); spec = GB/T 32907 (SM4_spec) | 256-entry tables checked by a finite sweep lifted to all bytes, xor-linearity of L, round induction; Feistel involution |
| C08-C11 | pkcs7Padding/UnPadding, Sm4Ecb, Sm4Cbc; slices with capacity for C11 | induction over blocks. C10, C11 FALSE |
| C12-C18 | sm2.go GenerateKey/randFieldElement/Sign/SignWithDigest/Verify/VerifyWithDigest/getZ, parametric in the curve implementation | group laws of the concrete curve (C28); modular algebra. C15, C17, C18 FALSE |
| C19-C22 | sm2enc.go Encrypt/Decrypt | d(kG)=k(dG), KDF, xor involution; fuel for Encrypt's retry loop. C21, C22 FALSE |
| C23-C25 | pointToBytes/FromBytes, keyDerivation, getZById | big-endian lemmas |
| C26-C27 | external.go, EncryptAsn1/DecryptAsn1, DER INTEGER/OCTET STRING/SEQUENCE (Asn1_model) | DER round trip by length lemmas |
| C28 | curve parameters; affine group law spec (SM2_curve_spec) | Pocklington certificates for p and n (Prime_cert; certificate chain down from N-1 and N+1 factors, checked by computation); associativity by field identities over an abstract field (EC_group); nG = O by a certified slope chain (SM2_order); every point is a multiple of G because #E = n: the order of E is a multiple of n by Lagrange, at most 2p+1 < 3n, and 2n is excluded since the cubic has no root (no point of order 2; the discriminant argument rules out one), so the cofactor is 1 |
| C29-C31 | sm2p256_amd64.go in full and the field functions of sm2p256_amd64.s at instruction level: Booth recoding, window loops, tables, add/double/select, PointToAffine, inversion chain | machine run = ideal run over GF(p) when no field operation of the run returned a wrong word (a flag threaded through the run); window invariants; Jacobian formulas incl. exceptional cases. C29 FALSE (n-6; dropped carries) |
| C32 | sm2p256OrdSqr/OrdMul instruction lists (P256_asm_code, transcribed by tools/gen_asm.py), Inverse | interpreter run on the witness. FALSE |
| C33-C40, C70 | x509/verify.go (isValid, name constraints, buildChains, Verify, EKU nesting, hostnames), cert_pool.go | induction over chains/pools; buildChains with fuel = number of intermediates + 1, shown sufficient. C70 FALSE |
| C41-C44, C71 | x509/pem_decrypt.go, PBKDF2 | AES and HMAC universally quantified with their contracts; CBC by induction on blocks. C41-C43, C71 FALSE |
| C45-C46, C73 | utils/keys.go, x509/sec1.go, pkcs8.go (SM2 branch) | DER round trip |
| C47-C53, C72, C82 | tls/conn.go: halfConn encrypt/decrypt, padding, incSeq, readRecord, Read/Write splitting, alerts | simulation of sender and receiver halves; C51/C72 by induction on the fragmentation; C49 by exhaustion of the constant-time mask on words |
| C54 | tls/conn.go Write/Close interlock | transition system over atomic steps, invariant by induction on the trace |
| C55-C57 | tls/prf.go | induction on P_hash blocks; hash objects abstract with `implements` |
| C58-C60, C74 | tls/gm_key_agreement.go (ECC) | reuse C13, C19; byte-level parsing. C59, C74 FALSE |
| C61-C62, C79, C80 | tls/ticket.go, Config ticket keys (common.go) | codec lemmas, state machine of the once-guarded key initialisation. C79, C80 FALSE |
| C63, C64, C75 | tls/handshake_messages.go, gm_handshake_messages.go: every marshal and unmarshal | marshal = fill of a buffer; unmarshal with explicit slice bounds (out of range = Panic); round trip and no-panic for all inputs |
| C65-C68, C76, C78, C81 | tls/common.go, cipher_suites.go, gm_support.go, tls.go GMX509KeyPairs* | induction over lists / cache histories. C76, C78, C81 FALSE |
| C69 | internal/subtle | interval arithmetic |
| C77, C83-C85, C94, C96 | tls/gm_handshake_server_double.go in full: readClientHello, checkForResumption, doResumeHandshake, doFullHandshake, processCertsFromClient, establishKeys, readFinished, sendSessionTicket, sendFinished (TLS_hs_model) | Hoare-style inversion of the monadic run; the log of events is compared with a flow specification (TLS_hs_spec) that does not mention the model. C77, C94 FALSE; what holds of C77 is C77_no_other_crash_partial (weakest-precondition argument, P_TLS_hs_safe2) |
| C86-C88, C92, C93, C95 | tls/gm_handshake_client_double.go in full | as above; C93 by a no-panic invariant (`safe`). C92, C93 (for ECDHE), C95 FALSE; C87 in one part |
| C89-C91, C97 | both ends together | agreement from the Finished values; tamper evidence with the collision made explicit; C91 runs both models against each other (each consumes what the other sent). C97 FALSE |
| C98-C110 | x509/x509.go:55-143, 376-512, 842-2450: certificates, requests and revocation lists as encoding/asn1 writes and reads them (Asn1_go: struct fields, optional and explicit tags, trailing data, RawContent) | encoder/decoder round trips per structure, combined; locality of the readers (what they return depends only on the element consumed) for C101; no-panic predicate by composition for C109. C100, C101, C103, C106, C107, C108, C110 FALSE in part |
| C111-C116 | tls/conn.go locking: handshakeMutex, in, out, handshakeStatus, handshakeErr, handshakes (TLS_sync_model) | transition system over any number of calls, one inductive invariant (mutual exclusion, per-program-point facts); deadlock freedom from the waits-for chain; explicit schedules for the refutations |
| C118 | readHandshake's loops over the record layer (TLS_hs_conn) | induction on the stream left; each record consumes input |
| C119 | the GM handshake run on the record layer: `net : chan` of TLS_hs_conn | simulation of the handshake with itself (TLS_hs_sim) carrying the invariant "key phase of the log = keys of the halves"; marks of the log (TLS_hs_marks); refuted with a temporary error |
| C117 | readHandshake over records (TLS_hs_conn), writeRecordLocked | induction on the records: `need` finds the bytes; writer lemma `write_chunked` |
| C120 | both handshakes on `net`, then Write and Read | the writer's records "arrive" as the log's outbox (writer_arrive); simulation of the script run by the network run with the reader's half tracking the writer's (TLS_hs_wire2); C72 for the data |
| C121 | TLS_std_model: std_serverHandshake (handshake_server.go) over an arbitrary channel | inversion of the whole run into a record (TLS_std_server), transcript-hash invariant `hlog` through every message |
| C122 | readClientHello, setCipherSuite, checkForResumption | inversion + C65/C66 |
| C123 | processCertsFromClient, CertificateVerify | inversion + chain soundness of Verify (C33) |
| C124 | rsa/ecdhe key agreement, master/key derivation | inversion + PRF refinement (C55) |
| C125 | checkForResumption, doResumeHandshake | inversion + ticket theorems (C61) |
| C126 | TLS_std_model: std_clientHandshake (handshake_client.go) over an arbitrary channel, with the state of the previous handshake as argument | inversion of the whole run into a record (TLS_std_client), transcript-hash invariant `hlog` |
| C127 | certificate processing of doFullHandshake | inversion + chain soundness of Verify (C33) |
| C128 | rsa/ecdhe key agreement, client side | inversion + PRF refinement (C55) |
| C129 | renegotiation checks | inversion |
| C130 | session cache, serverResumedSession, readSessionTicket | inversion |
| C131 | std_clientHandshake and std_serverHandshake over two arbitrary record layers, wire logs equal | both inversions; identification of the messages in the two logs; C63/C75 round trips |
| C132 | same, logs not assumed equal | C121/C126 Finished theorems + unique framing of messages |
| C133 | std_serverHandshake over an arbitrary record layer that delivers byte strings of bounded size | panic-freedom logic (safe): every step preserves an invariant on the transcript hash; refutation by one ClientHello, run in the kernel |
| C134 | std_clientHandshake, same | same; refutation by a three-message server flight, run in the kernel |
| C135 | X509KeyPair, parsePrivateKey, ParsePKCS1PrivateKey, ParsePKCS8PrivateKey with all key types | characterisation by induction over the PEM blocks; the SM2 case through C46, C73 and C13; panic freedom through C109 and C46 |
| C136 | DialWithDialer as a small-step system of three threads and a channel of capacity 2 | invariant over all reachable states; string lemmas for the server name |
| C137 | hostnameInSNI, makeClientHello | string lemmas; refutation by a name ending in a dot |
| C138 | what processServerHello and processServerKeyExchange compare with the ClientHello | corollary of C126 and C128; three concrete runs against servers built from the specification |
| C139 | AppendCertsFromPEM, SystemCertPool, root_unix.go loadSystemRoots over an abstract file system | induction on text, file list and directory list against inductively defined certificate lists |
| C140 | ParsePKCS1PrivateKey, MarshalPKCS1PrivateKey with encoding/asn1 and rsa.Precompute | DER round trip lemmas; coprimality of distinct primes for the coefficients; refuted with N = 3 * 5 * 3 |
| C141 | MarshalECPrivateKey, ParseECPrivateKey with encoding/asn1's decoder of the structure | DER round trip, C46 for the key proper; the SM2 case through the verified base multiplication; refuted for D >= 256^len |
| C142 | fixedNonceAEAD, xorNonceAEAD as objects with mutable nonce; encrypt, decrypt and writeRecordLocked under them | object runs equal stateless runs; induction over the write loop; injectivity of be_bytes under append and xor |
| C143 | tls10MAC, ssl30MAC, cthWrapper, macSM3, macSHA1, macSHA256 over stateful hash and HMAC objects | object runs equal stateless runs by the representation relation of the hash objects |
| C144 | getCert, getKey, matchKeyCert, GMX509KeyPairs(Single), the three file loaders over C135's key and certificate parsers | exact characterisation by C135's block lemmas; refutations on a certificate made by CreateCertificate |
| C145 | ConnectionState and ExportKeyingMaterial over the handshake results of C83-C132 | composition of C57 and C131 |

## 4. What is modelled and what is not

Modelled function by function: sm3/, sm4/, sm2/ (including sm2p256_amd64.go and, of the assembly, the field and order
multiplication/squaring routines as instruction lists, the rest of the assembly at the level of its field operations),
x509/x509.go (all but the list of constants of string tables; see below), verify.go, cert_pool.go, pem_decrypt.go, sec1.go, pkcs8.go (SM2), utils/keys.go, tls/{prf, ticket, alert numbers,
handshake_messages, gm_handshake_messages, gm_key_agreement, gm_handshake_server_double, gm_handshake_client_double,
auth, gm_support (negotiation, key-pair loading), cipher_suites (tables and selection)}.go, the parts of tls/conn.go named above,
the parts of tls/common.go named above, internal/subtle.

Simplifications, each also stated at the definition:

* SM3/SM4: none of substance; `int` lengths below 2^60.
* SM2: curve implementation is a parameter `cv` (`good_curve cv` = its three multiplications are right; `mult_range` = they return
  coordinates in [0,p)). `cv_std` (arm64 build: the standard library's generic CurveParams) satisfies both; the amd64 code is the
  subject of C29-C32. randutil.MaybeReadByte is part of the random draw. Negative big.Int inputs to the amd64 curve are out of scope.
* amd64: constant-time selects are lookups, tables are stored by columns, shift instructions leave CF unusable in the interpreter.
* x509: certificates are records of the fields Verify reads (`raw` identifies a certificate); signature checks between certificates
  are the parameter `checksig`; strings.EqualFold is ASCII only; time is an integer.
* x509.go: names and times are abstract types with the standard library's encoders and decoders as parameters; RSA, DSA and ECDSA
  verification, hashes other than SM3 and NIST point encodings are parameters; OIDs are DER contents; a template with
  CertificateRequest.Attributes is out of scope; nil and empty slices are not distinguished; an SM2 key on a NIST curve verifies by a parameter.
* keys/PEM: OIDs are DER contents, PEM armour, AES and HMAC are parameters.
* record layer: no buffer reuse, the transport's Write succeeds, temporary read errors are retried; interlock with < 2^29 calls.
* PRF: MD5, SHA-1, SHA-256, SHA-384 are parameters (`implements`: a streaming object computing a function); SM3 is this repository's
  object; HMAC follows crypto/hmac; SSL 3.0's PRF panics beyond 176 bytes, and its Finished values can be used once, as in the code.
* handshake messages: the `raw` cache is not modelled (a message is marshalled from its fields), nil = empty, slicing beyond len is a panic
  even where the capacity would allow it.
* negotiation: strings.ToLower is a parameter; the LRU mutex makes calls sequential.
* handshake: only the first handshake of a connection (renegotiation for GMSSL is refused by the code), buffering/flush ignored, the record
  layer is a parameter `chan` (any behaviour), callbacks, certificate parsing, RSA/ECDSA verification, X25519/NIST ECDH are parameters,
  randomness is what config.Rand delivers to each caller. The ClientHello the client sends is the one makeClientHelloGM builds.
* ordinary TLS handshake (TLS_std_model: handshake_client.go, handshake_server.go, key_agreement.go, auth.go): same channel and parameters;
  private keys are three functions (public key kind, sign, decrypt), key exchange groups are records of functions (X25519 and the NIST curves);
  the client's state before a renegotiation is an explicit argument (`prior`). Records and CCS are channel operations, as for GMSSL.
* `std_world_ok E Hs H512`: the hash objects implement Hs and SHA-512 implements H512.
* `world_ok E Hs`: the hash objects implement the functions Hs, these give byte strings of the right length, the curve gives
  coordinates in range.

Not modelled: timing and constant-time behaviour; RSA, ECDSA and NIST-curve code of the Go standard library; system root loading other than on Linux
(x509/root_darwin.go, root_windows.go, ...); network I/O and deadlines; memory allocation; gm_handshake_client.go / gm_handshake_server.go (the single-certificate variants, compiled only with the build tag
single_cert) unless a row above says otherwise.

## 5. Print Assumptions

`tools/assumptions.py` prints it for every theorem named in MANIFEST.json; all of them are "Closed under the global context".
No axiom is declared and none of the standard library's is used. (vcheck also lists the parameters of the library module
Coq.ssr.ssrunder, which the standard library loads; no theorem here depends on
them.)

## 6. Tests of the theorems against wrong programs

`tools/mutate.py` applies an edit to a copy of the model, rebuilds, admits what fails so that everything downstream is still checked,
and reports which claimed theorems were lost. `seeded/LOG.jsonl` has one line per edit.

## 7. Behaviour of the code noticed while modelling it

Each is visible in the model; those marked with a property are theorems.

* GMSSL client: `haveVers` is never set, so record versions are never compared; a HelloRequest is refused.
* GMSSL server: completes at versions other than 0x0101; with the default versions a client offering 0x0200 crashes it (C77). A resumed
  handshake hashes its transcript with SHA-1; the CertificateVerify of an SM2 client certificate fails at versions >= TLS 1.2.
* ordinary TLS: a default server or client can be crashed by its peer (C133, C134). A HelloRequest split over two records kills the connection;
  sending alertNoRenegotiation sets `out.err` for good; a session obtained in a renegotiation is stored under the empty key (C130).
* ordinary client: accepts an ALPN protocol, a group, or (at TLS 1.0) a TLS 1.2 suite it did not offer or that is not defined there (C138).
* X509KeyPair does not compare the curves of ECDSA keys (C135). Dial with a deadline of exactly now has no limit (C136). "1.2.3.4." is sent as
  SNI "1.2.3.4" (C137). SystemCertPool can return (nil, nil) (C139).
* suite constants such as 0xc013 and 0xc027 exist but are not all in the cipherSuites table.
* MarshalPKCS1PrivateKey returns nothing for a key with a repeated third prime that ParsePKCS1PrivateKey accepts (C140). MarshalECPrivateKey
  panics on a scalar wider than the order; ParseECPrivateKey accepts trailing data (C141).
* GMX509KeyPairs never reads the encryption key; GMX509KeyPairs and (for SM2) GMX509KeyPairsSingle drop intermediate certificates (C144).
* ConnectionState before the end of the handshake: ExportKeyingMaterial panics (C145). TLSUnique is a slice of the connection's own array.
