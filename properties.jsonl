{"id": "C01", "title": "SumSM3 computes the standard SM3 hash", "statement": "For every byte string m shorter than 2^61 bytes, SumSM3(m) is the 32-byte value that GB/T 32905 (SM3: pad with 1-bit, zeros and the 64-bit bit length, split into 512-bit blocks, iterate the compression function from IV) assigns to m.", "quantifier": "every message length and content below 2^61 bytes", "why_tests_cant": "the message space is infinite; vectors only sample lengths and contents, and padding boundary classes", "anchors": ["sm3/sm3.go:SumSM3,checkSum,Write", "sm3/sm3hash.go:cF,msgExp,Block"]}
{"id": "C02", "title": "SM3 streaming equals one-shot hashing", "statement": "For every way of cutting a message into successive Write calls (including empty ones), Sum(nil) after these writes equals SumSM3 of the concatenation, and every Write reports len(p) bytes and no error.", "quantifier": "all sequences of Write arguments", "why_tests_cant": "there are exponentially many chunkings, each exercising different buffer-fill boundaries", "anchors": ["sm3/sm3.go:digest.Write,digest.Sum"]}
{"id": "C03", "title": "SM3 Sum is non-destructive and Reset restores the initial state in every history", "statement": "In every history of New/Write/Sum/Reset calls, each Sum(prefix) returns prefix followed by the hash of exactly the bytes written since the last Reset, and Sum does not affect later results.", "quantifier": "all finite interleavings of Write, Sum and Reset", "why_tests_cant": "property of every history, not a single call", "anchors": ["sm3/sm3.go:digest.Sum,digest.Reset,digest.Write"]}
{"id": "C04", "title": "SM3 never hits its internal panic and always yields 32 bytes", "statement": "The 'd.nx != 0' panic in checksum computation is unreachable and every digest has exactly Size()=32 bytes.", "quantifier": "all reachable digest states", "why_tests_cant": "absence of a panic over all states cannot be sampled", "anchors": ["sm3/sm3.go:digest.checkSum"]}
{"id": "C05", "title": "SM4 block encryption implements the standard", "statement": "For every 16-byte key and 16-byte block, NewCipher(key).Encrypt produces the GB/T 32907 SM4 ciphertext (byte-wise S-box tau, linear L, 32 rounds with the standard key schedule, reversal), although the code uses four 256-entry word tables.", "quantifier": "all 2^128 keys and 2^128 blocks", "why_tests_cant": "the domain has 2^256 elements", "anchors": ["sm4/sm4.go:cryptBlock,keyExp,NewCipher", "sm4/const.go:sbox,sbox0,sbox1,sbox2,sbox3,fk,ck"]}
{"id": "C06", "title": "SM4 Decrypt inverts Encrypt and vice versa", "statement": "For every accepted key and every 16-byte block b, Decrypt(Encrypt(b)) = b and Encrypt(Decrypt(b)) = b.", "quantifier": "all keys and blocks", "why_tests_cant": "2^256 pairs", "anchors": ["sm4/sm4.go:Sm4Cipher.Encrypt,Sm4Cipher.Decrypt,cryptBlock"]}
{"id": "C07", "title": "SM4 NewCipher accepts exactly 16-byte keys", "statement": "NewCipher succeeds iff len(key)=16, otherwise it returns KeySizeError(len(key)); Sm4Ecb and Sm4Cbc make the same decision in both modes before touching the data.", "quantifier": "all key lengths, all inputs, both modes", "why_tests_cant": "unbounded lengths", "anchors": ["sm4/sm4.go:NewCipher,Sm4Ecb,Sm4Cbc"]}
{"id": "C08", "title": "SM4 ECB helper round-trips every message", "statement": "For every 16-byte key and every byte string m (any length incl. 0), Sm4Ecb(key, Sm4Ecb(key,m,ENC), DEC) returns m with nil error; the ciphertext is the PKCS#7-padded message encrypted block by block, with length the next multiple of 16 strictly above len(m).", "quantifier": "all keys and messages", "why_tests_cant": "infinite message space", "anchors": ["sm4/sm4.go:Sm4Ecb,pkcs7Padding,pkcs7UnPadding"]}
{"id": "C09", "title": "SM4 CBC helper round-trips every message and is CBC with a zero IV", "statement": "For every 16-byte key and byte string m, Sm4Cbc(key, Sm4Cbc(key,m,ENC), DEC) returns m with nil error; ciphertext block i is E(padded_i xor c_{i-1}) with c_{-1}=0.", "quantifier": "all keys and messages", "why_tests_cant": "infinite message space", "anchors": ["sm4/sm4.go:Sm4Cbc,xor,pkcs7Padding,pkcs7UnPadding"]}
{"id": "C10", "title": "SM4 helpers report malformed ciphertext", "statement": "Decrypting (Sm4Ecb/Sm4Cbc with DEC) an input that is not the encryption of any message returns a non-nil error and does not crash.", "quantifier": "all keys and all ciphertext byte strings", "why_tests_cant": "malformed inputs are unbounded; the negative space is never exhausted by tests", "anchors": ["sm4/sm4.go:Sm4Ecb,Sm4Cbc,pkcs7UnPadding"]}
{"id": "C11", "title": "SM4 helpers do not modify caller memory", "statement": "Sm4Ecb/Sm4Cbc leave the caller's backing array, including bytes beyond len(in) within its capacity, unchanged.", "quantifier": "all slices (content, length, spare capacity)", "why_tests_cant": "depends on aliasing and spare capacity, which tests with fresh literals never have", "anchors": ["sm4/sm4.go:pkcs7Padding"]}
{"id": "C12", "title": "SM2 key generation yields a valid key pair for every random stream", "statement": "For every 40-byte random draw, GenerateKey returns D in [1,n-1] and the public point (X,Y) = D*G, which lies on the SM2 curve and is not the point at infinity; a failing reader gives an error and no key.", "quantifier": "all outputs of the random source, including failure", "why_tests_cant": "2^320 draws", "anchors": ["sm2/sm2.go:GenerateKey,randFieldElement"]}
{"id": "C13", "title": "SM2 signatures made by Sign verify", "statement": "For every private key D in [1,n-2] (public key D*G), every message and every nonce k in [1,n-1] for which the produced r, s and r+s are nonzero mod n, Verify(pub, msg, r, s) is true - with or without precomputed tables and with or without the cached (1+D)^-1. The degenerate nonces are exactly characterised.", "quantifier": "all keys, messages and nonces", "why_tests_cant": "2^256 keys x nonces x all messages", "anchors": ["sm2/sm2.go:Sign,Verify,getZ"]}
{"id": "C14", "title": "SM2 SignWithDigest/VerifyWithDigest round-trip", "statement": "The same for the digest API, for digests of every length (also longer than 32 bytes), and Sign/Verify agree with SignWithDigest/VerifyWithDigest applied to SM3(Z||msg).", "quantifier": "all keys, digests and nonces", "why_tests_cant": "same", "anchors": ["sm2/sm2.go:SignWithDigest,VerifyWithDigest"]}
{"id": "C15", "title": "SM2 signing works for every generated key", "statement": "Every key that GenerateKey can return produces signatures that verify.", "quantifier": "all random draws, messages, nonces", "why_tests_cant": "the failing key D=n-1 has probability 2^-256", "anchors": ["sm2/sm2.go:GenerateKey,Sign,Verify"]}
{"id": "C16", "title": "SM2 verification rejects out-of-range signatures", "statement": "Verify and VerifyWithDigest return false whenever r or s is outside [1,n-1].", "quantifier": "all integers r,s (any size or sign), keys, messages", "why_tests_cant": "unbounded integers", "anchors": ["sm2/sm2.go:Verify,VerifyWithDigest"]}
{"id": "C17", "title": "SM2 verification accepts exactly what GB/T 32918.2 accepts", "statement": "Verify returns true iff r,s in [1,n-1], t=r+s mod n is nonzero, and (e + x(s*G+t*P)) mod n = r.", "quantifier": "all keys, messages, r, s", "why_tests_cant": "the differing inputs have negligible probability under random testing", "anchors": ["sm2/sm2.go:Verify,VerifyWithDigest"]}
{"id": "C18", "title": "SM2 signing and encryption report random-source failure as an error", "statement": "If the supplied reader fails, Sign, SignWithDigest, Encrypt and EncryptAsn1 return a non-nil error.", "quantifier": "all keys, messages, reader failures", "why_tests_cant": "fault injection in the reader is not covered by tests", "anchors": ["sm2/sm2.go:_generateRandK,Sign", "sm2/sm2enc.go:doEncrypt"]}
{"id": "C19", "title": "SM2 Decrypt inverts Encrypt", "statement": "For every key pair (D, D*G), message and nonce for which Encrypt returns, Decrypt(Encrypt(msg)) = msg with nil error, and the ciphertext is 04||x||y||C3||C2 of length 97+len(msg).", "quantifier": "all keys, messages (any length), nonces", "why_tests_cant": "infinite space", "anchors": ["sm2/sm2enc.go:Encrypt,Decrypt,doEncrypt"]}
{"id": "C20", "title": "SM2 Decrypt only returns authenticated plaintext", "statement": "If Decrypt(c) returns plaintext m without error then c's hash part equals SM3(x2||m||y2) and c's last part equals m xor KDF(x2||y2) for (x2,y2)=D*C1; hence altering only C3, or only C2 without an SM3 collision, yields an error.", "quantifier": "all ciphertext byte strings of length >= 97 starting with 04", "why_tests_cant": "all alterations of all ciphertexts", "anchors": ["sm2/sm2enc.go:Decrypt"]}
{"id": "C21", "title": "SM2 Encrypt terminates for every random draw", "statement": "Encrypt returns (a ciphertext or an error) for every key, message and random draw.", "quantifier": "all keys, messages, nonces", "why_tests_cant": "the non-terminating draws (1 in 256 for one-byte messages) may never be drawn; a test cannot show non-termination", "anchors": ["sm2/sm2enc.go:doEncrypt (regen)"]}
{"id": "C22", "title": "SM2 Decrypt rejects malformed ciphertexts with an error", "statement": "For every byte string c that is not a well-formed ciphertext (too short, wrong leading byte, C1 off the curve) Decrypt returns an error rather than crashing or computing.", "quantifier": "all byte strings", "why_tests_cant": "unbounded malformed inputs", "anchors": ["sm2/sm2enc.go:Decrypt,pointFromBytes"]}
{"id": "C23", "title": "SM2 point serialisation round-trips", "statement": "pointFromBytes(pointToBytes(x,y)) = (x,y) for all coordinates below 2^256 (with leading-zero padding), and the encoding always has 65 bytes.", "quantifier": "all coordinates", "why_tests_cant": "2^512", "anchors": ["sm2/sm2enc.go:pointToBytes,pointFromBytes"]}
{"id": "C24", "title": "SM2 KDF is the standard counter-mode KDF", "statement": "keyDerivation(Z, 8*n) is the first n bytes of SM3(Z||1)||SM3(Z||2)||... ; it returns nil iff the bit length is not a multiple of 8; outputs for a shorter length are prefixes of outputs for longer lengths.", "quantifier": "all Z and lengths", "why_tests_cant": "unbounded lengths", "anchors": ["sm2/sm2enc.go:keyDerivation"]}
{"id": "C25", "title": "SM2 identity hash Z is the standard one", "statement": "Z = SM3(ENTL||ID||a||b||Gx||Gy||x||y) with 16-bit ENTL the bit length of the ID and x, y padded to 32 bytes, for IDs shorter than 8192 bytes; two IDs differing by length multiple of 8192 bytes collide in ENTL.", "quantifier": "all ids and public keys", "why_tests_cant": "leading-zero coordinates occur with probability 2^-8 per draw; long ids not tested", "anchors": ["sm2/sm2.go:getZById,getZ"]}
{"id": "C26", "title": "SM2 DER signatures round-trip", "statement": "PrivateKey.Sign output parses back to the (r,s) produced by Sign for every (r,s) in range, so PublicKey.Verify(msg, priv.Sign(msg)) holds whenever Verify(msg,r,s) does; same for Sm2KeyGen/Sm2Sign/Sm2Verify.", "quantifier": "all keys, messages, nonces, integer lengths", "why_tests_cant": "DER length and sign-byte boundary cases", "anchors": ["sm2/external.go:PrivateKey.Sign,PublicKey.Verify,Sm2Sign,Sm2Verify,Sm2KeyGen"]}
{"id": "C27", "title": "SM2 ASN.1 ciphertexts round-trip", "statement": "DecryptAsn1(priv, EncryptAsn1(pub, msg)) = msg for every key pair, message and nonce for which EncryptAsn1 returns.", "quantifier": "all keys, messages, nonces", "why_tests_cant": "DER length boundaries at 128, 256, 65536... bytes", "anchors": ["sm2/sm2enc.go:EncryptAsn1,DecryptAsn1"]}
{"id": "C28", "title": "The SM2 curve used is an abelian group with a base point of prime order n", "statement": "P256() parameters define a non-singular curve over a prime field; point addition is an abelian group; G is on the curve, n is prime and n*G = O.", "quantifier": "all triples of curve points", "why_tests_cant": "associativity over 2^768 triples", "anchors": ["sm2/sm2p256_amd64.go:initP256"]}
{"id": "C29", "title": "Windowed scalar multiplication computes k*P", "statement": "ScalarMult(x,y,k) and ScalarBaseMult(k) with signed-window (Booth) recoding return the affine coordinates of k*P, resp. k*G, for every scalar byte string and every affine curve point of order n ((0,0) for the point at infinity).", "quantifier": "all scalars and points", "why_tests_cant": "2^256 scalars; exceptional cases of incomplete addition formulas are hit with negligible probability", "anchors": ["sm2/sm2p256_amd64.go:p256ScalarMult,p256BaseMult,boothW5,boothW7"]}
{"id": "C30", "title": "Table-based multiplications agree with plain ones", "statement": "With the table of InitPubKeyTable for P, PreScalarMult(k) = k*P and CombinedMult(s,t) = s*G + t*P for all scalars, including the cases s=0, t=0, s*G = t*P and s*G = -t*P.", "quantifier": "all scalars and points", "why_tests_cant": "same", "anchors": ["sm2/sm2p256_amd64.go:InitPubKeyTable,p256PreMult,CombinedMult,PreScalarMult"]}
{"id": "C31", "title": "Field inversion by addition chain is correct", "statement": "p256Inverse computes x^(p-2) mod p, the inverse of x for every nonzero x and 0 for 0.", "quantifier": "all field elements", "why_tests_cant": "2^256 inputs", "anchors": ["sm2/sm2p256_amd64.go:p256Inverse"]}
{"id": "C32", "title": "Scalar inversion is correct", "statement": "P256().Inverse(k) * k = 1 mod n for every k not divisible by n.", "quantifier": "all k", "why_tests_cant": "2^256 inputs", "anchors": ["sm2/sm2p256_amd64.go:p256Curve.Inverse"]}
{"id": "C33", "title": "Certificate hostname matching admits only exact or single-left-label wildcard matches", "statement": "VerifyHostname(h) succeeds for a DNS host iff some DNS SAN (or, without a SAN extension, the common name) equals h case-insensitively label by label, where only a leading label that is exactly '*' matches any one label, trailing dots being ignored and empty names never matching.", "quantifier": "all certificates and host strings", "why_tests_cant": "infinite strings", "anchors": ["x509/verify.go:VerifyHostname,matchHostnames,toLowerCaseASCII"]}
{"id": "C34", "title": "IP hosts match only IP SANs", "statement": "If the host parses as an IP address (optionally in brackets), VerifyHostname succeeds iff an IP SAN equals it; names are never consulted.", "quantifier": "all certificates and hosts", "why_tests_cant": "infinite", "anchors": ["x509/verify.go:VerifyHostname"]}
{"id": "C35", "title": "DNS name constraints are enforced on label boundaries", "statement": "matchNameConstraint(domain, c) holds iff c is empty, or equals domain case-insensitively, or domain ends with c at a label boundary ('.'+c without leading dot in c; with a leading dot, a strict subdomain).", "quantifier": "all strings", "why_tests_cant": "infinite", "anchors": ["x509/verify.go:matchNameConstraint"]}
{"id": "C36", "title": "Every chain returned by Verify is a valid path to a trusted root", "statement": "Each returned chain starts with the certificate, ends in a certificate of Roots, every adjacent pair satisfies CheckSignatureFrom and issuer/subject name equality, no certificate repeats, every certificate is within its validity period at the verification time, intermediates are CAs, and no unhandled critical extension occurs.", "quantifier": "all certificates, pools, options", "why_tests_cant": "all finite certificate graphs", "anchors": ["x509/verify.go:Certificate.Verify,buildChains,isValid"]}
{"id": "C37", "title": "Path-length constraints hold on every returned chain", "statement": "In every chain returned by Verify, a certificate with MaxPathLen m has at most m intermediates below it.", "quantifier": "all pools and chains", "why_tests_cant": "the chain cache is only hit in diamond-shaped graphs", "anchors": ["x509/verify.go:buildChains(cache),isValid"]}
{"id": "C38", "title": "Chain building terminates on every certificate graph", "statement": "Verify terminates on every pool (also cyclic, cross-signed ones), with recursion depth at most the number of intermediates plus one.", "quantifier": "all certificate graphs", "why_tests_cant": "cyclic cross-signing graphs are unbounded", "anchors": ["x509/verify.go:buildChains"]}
{"id": "C39", "title": "Extended key usage nesting is enforced", "statement": "checkChainForKeyUsage accepts iff some requested usage is permitted by every certificate of the chain (no EKU / Any permit all; SGC usages imply ServerAuth).", "quantifier": "all chains and usage lists", "why_tests_cant": "all subsets", "anchors": ["x509/verify.go:checkChainForKeyUsage,Verify"]}
{"id": "C40", "title": "CertPool behaves as a set of certificates", "statement": "After any sequence of AddCert, contains(c) holds iff c was added, no certificate is stored twice, Subjects lists them in first-insertion order, and lookup by subject key id/name returns exactly the matching certificates; copy is independent.", "quantifier": "all AddCert histories", "why_tests_cant": "histories", "anchors": ["x509/cert_pool.go:AddCert,contains,findVerifiedParents,copy,Subjects"]}
{"id": "C41", "title": "Encrypted PEM round-trips", "statement": "DecryptPEMBlock(EncryptPEMBlock(data, pwd), pwd) = data for every data, password, salt and IV.", "quantifier": "all data lengths, passwords, random draws", "why_tests_cant": "infinite", "anchors": ["x509/pem_decrypt.go:EncryptPEMBlock,DecryptPEMBlock,pbkdf"]}
{"id": "C42", "title": "DecryptPEMBlock validates padding and never crashes", "statement": "For every block DecryptPEMBlock either returns an error or data whose re-padding gives the decrypted bytes; it does not panic.", "quantifier": "all DER-decodable inputs", "why_tests_cant": "malformed inputs", "anchors": ["x509/pem_decrypt.go:DecryptPEMBlock"]}
{"id": "C43", "title": "EncryptPEMBlock uses the requested cipher", "statement": "The data is encrypted with the algorithm passed as alg.", "quantifier": "all alg values", "why_tests_cant": "DER content is opaque to round-trip tests", "anchors": ["x509/pem_decrypt.go:EncryptPEMBlock"]}
{"id": "C44", "title": "PBKDF2 is RFC 2898 PBKDF2", "statement": "pbkdf(password,salt,iter,keyLen,h) equals the RFC 2898 function for every iteration count and key length.", "quantifier": "all parameters", "why_tests_cant": "unbounded", "anchors": ["x509/pem_decrypt.go:pbkdf"]}
{"id": "C45", "title": "SM2 keys survive PEM export/import", "statement": "PEMtoPrivateKey(PrivateKeyToPEM(k,pwd),pwd) gives back D and the public point for every D in [1,n-1], with and without password; PEMtoPublicKey(PublicKeyToPEM(pk)) = pk; encrypted input without password is refused.", "quantifier": "all keys, passwords, random draws", "why_tests_cant": "leading-zero private keys etc.", "anchors": ["utils/keys.go", "x509/sec1.go", "x509/pkcs8.go"]}
{"id": "C46", "title": "EC private key parsing enforces range", "statement": "parseECPrivateKey returns a key only if the version is 1, the curve is known, and 0 <= D < n; the public key is recomputed as D*G regardless of embedded data.", "quantifier": "all DER inputs", "why_tests_cant": "infinite", "anchors": ["x509/sec1.go:parseECPrivateKey"]}
{"id": "C47", "title": "TLS record protection round-trips (CBC suites incl. GM SM4-SM3)", "statement": "For every plaintext record, a receiver with the same keys, sequence number and version recovers exactly the payload sent (MAC verified, padding and explicit IV removed), and both sequence numbers advance by one.", "quantifier": "all payloads, keys, IVs, sequence numbers < 2^64-1", "why_tests_cant": "all payload lengths modulo block size, all keys", "anchors": ["tls/conn.go:halfConn.encrypt,halfConn.decrypt,padToBlockSize"]}
{"id": "C48", "title": "A TLS record is accepted only with a valid MAC and padding", "statement": "decrypt succeeds iff the record has legal length, the padding bytes are all equal to the padding length, and the MAC over (seq, type, version, length, plaintext) matches; otherwise alertBadRecordMAC and unchanged sequence number.", "quantifier": "all records", "why_tests_cant": "2^(8n) records", "anchors": ["tls/conn.go:halfConn.decrypt,extractPadding"]}
{"id": "C49", "title": "Constant-time padding extraction equals its specification", "statement": "extractPadding(payload) returns good=255 iff the last byte p satisfies p < len(payload) and the last p+1 bytes all equal p, and 0 otherwise; toRemove=p+1.", "quantifier": "all payloads below 2^31 bytes", "why_tests_cant": "bit-trick code over all lengths", "anchors": ["tls/conn.go:extractPadding"]}
{"id": "C50", "title": "Sequence numbers count records and never wrap silently", "statement": "After changeCipherSpec and k records the sequence number is k big-endian; at 2^64-1 the increment panics instead of wrapping.", "quantifier": "all k", "why_tests_cant": "2^64 records", "anchors": ["tls/conn.go:incSeq,changeCipherSpec"]}
{"id": "C51", "title": "Records are reassembled identically for every network fragmentation", "statement": "The sequence of records delivered by the read path is the same for every way the transport splits the byte stream into reads.", "quantifier": "all streams and splits", "why_tests_cant": "exponentially many splits", "anchors": ["tls/conn.go:readFromUntil,splitBlock,readRecord"]}
{"id": "C52", "title": "Write splits application data into legal records that concatenate to the input", "statement": "For every buffer, Write emits records whose payloads concatenate to the buffer, each with at most 16384 payload bytes and non-empty, reports len(b), and uses 1/(n-1) splitting exactly for CBC in SSL3.0-TLS1.0 (not GMSSL).", "quantifier": "all buffers, all packet counters", "why_tests_cant": "unbounded", "anchors": ["tls/conn.go:writeRecordLocked,maxPayloadSizeForWrite,Write"]}
{"id": "C53", "title": "A warning-alert flood is cut off and errors are sticky", "statement": "At most 5 consecutive warning alerts are tolerated; after any fatal condition the connection's read side returns the same error for ever.", "quantifier": "all record sequences", "why_tests_cant": "all schedules", "anchors": ["tls/conn.go:readRecord,setErrorLocked"]}
{"id": "C54", "title": "Close/Write interlock", "statement": "After Close has succeeded in setting the closed bit no later Write enters, a second Close returns errClosed, and the counter of active writers returns to its value; close_notify is sent at most once.", "quantifier": "all interleavings of Write and Close", "why_tests_cant": "schedules", "anchors": ["tls/conn.go:Write,Close,closeNotify"]}
{"id": "C55", "title": "TLS PRF output structure", "statement": "For every length, pHash fills exactly the requested length with P_hash of RFC 5246; shorter outputs are prefixes of longer ones; client and server derive the same master secret and key block and the six keys partition the key block in the specified order.", "quantifier": "all secrets, seeds, lengths", "why_tests_cant": "unbounded", "anchors": ["tls/prf.go:pHash,prf12,masterFromPreMasterSecret,keysFromMasterSecret"]}
{"id": "C56", "title": "Finished values bind the transcript", "statement": "clientSum/serverSum are the 12-byte PRF of the hash of the concatenation of all messages written, independent of chunking; for GMSSL the hash is SM3 only.", "quantifier": "all transcripts and chunkings", "why_tests_cant": "unbounded", "anchors": ["tls/prf.go:finishedHash", "tls/gm_support.go:newFinishedHashGM"]}
{"id": "C57", "title": "Exported keying material rejects reserved labels and separates contexts", "statement": "ekm refuses the four reserved labels and contexts >= 65536 bytes; distinct (absent/empty/other) contexts give distinct PRF seeds.", "quantifier": "all labels, contexts, lengths", "why_tests_cant": "infinite", "anchors": ["tls/prf.go:ekmFromMasterSecret"]}
{"id": "C58", "title": "GM ECC key exchange gives both sides the same pre-master secret", "statement": "For every server encryption key pair and client randomness, processClientKeyExchange(generateClientKeyExchange()) returns the client's 48-byte pre-master secret.", "quantifier": "all keys and randomness", "why_tests_cant": "2^256 keys", "anchors": ["tls/gm_key_agreement.go:eccKeyAgreementGM"]}
{"id": "C59", "title": "GM key exchange messages validate their length field", "statement": "processClientKeyExchange and processServerKeyExchange accept a message only if its 16-bit length prefix equals the remaining length, for all lengths.", "quantifier": "all byte strings", "why_tests_cant": "malformed inputs", "anchors": ["tls/gm_key_agreement.go:processClientKeyExchange,processServerKeyExchange"]}
{"id": "C60", "title": "GM ServerKeyExchange signature covers both randoms and the encryption certificate", "statement": "The signed data is an injective encoding of (clientRandom, serverRandom, encCert) for 32-byte randoms and certificates < 2^24 bytes, and the client accepts the honest server's message.", "quantifier": "all randoms and certificates", "why_tests_cant": "infinite", "anchors": ["tls/gm_key_agreement.go:hashForServerKeyExchange,generateServerKeyExchange,processServerKeyExchange"]}
{"id": "C61", "title": "Session tickets round-trip", "statement": "decryptTicket(encryptTicket(state)) returns the same vers, suite, master secret and certificates under any key list containing the encrypting key; usedOldKey iff it is not the first.", "quantifier": "all session states with fields within their length fields, keys, IVs", "why_tests_cant": "infinite", "anchors": ["tls/ticket.go"]}
{"id": "C62", "title": "Tampered or unknown-key tickets are refused", "statement": "decryptTicket succeeds only if the HMAC over everything before the tag matches for the first key with that name; sessionState.unmarshal accepts only complete encodings (unmarshal then marshal is the identity on accepted bytes).", "quantifier": "all byte strings", "why_tests_cant": "infinite", "anchors": ["tls/ticket.go:decryptTicket,sessionState.unmarshal"]}
{"id": "C63", "title": "Handshake messages round-trip", "statement": "For every message value within its wire limits, unmarshal(marshal(m)) succeeds and gives m, for certificateRequestMsgGM, certificateMsg, certificateVerifyMsg, clientKeyExchange, serverKeyExchange, finished, newSessionTicket, nextProto, certificateStatus, serverHelloDone, helloRequest, clientHello and serverHello.", "quantifier": "all message values", "why_tests_cant": "infinite; QuickCheck-style tests only sample", "anchors": ["tls/handshake_messages.go", "tls/gm_handshake_messages.go"]}
{"id": "C64", "title": "Handshake parsers never crash", "statement": "unmarshal of every byte string returns true or false without out-of-range access.", "quantifier": "all byte strings", "why_tests_cant": "infinite", "anchors": ["tls/handshake_messages.go", "tls/gm_handshake_messages.go"]}
{"id": "C65", "title": "Version negotiation picks min(client max, server max) or fails", "statement": "mutualVersion(v) fails iff v < MinVersion and otherwise returns min(v, MaxVersion).", "quantifier": "all configs and versions", "why_tests_cant": "2^48 combos", "anchors": ["tls/common.go:mutualVersion"]}
{"id": "C66", "title": "Cipher suite negotiation only picks a suite both sides offered", "statement": "mutualCipherSuite(have,want) (and the GM variant) returns a suite iff want is in have and implemented, and its id is want; server selection honours preference order.", "quantifier": "all lists", "why_tests_cant": "infinite lists", "anchors": ["tls/gm_support.go:mutualCipherSuiteGM", "tls/cipher_suites.go:mutualCipherSuite"]}
{"id": "C67", "title": "LRU session cache behaves as a bounded LRU map", "statement": "For every history of Put/Get, the cache holds at most capacity entries, Get returns the latest Put value for a key unless capacity other distinct keys were used since, and eviction removes the least recently used.", "quantifier": "all histories", "why_tests_cant": "histories", "anchors": ["tls/common.go:lruSessionCache"]}
{"id": "C68", "title": "Server certificate selection by name", "statement": "getCertificate returns the certificate mapped to the lower-cased, dot-trimmed server name, else the first wildcard form in left-to-right order, else the first certificate.", "quantifier": "all configs and names", "why_tests_cant": "infinite", "anchors": ["tls/common.go:getCertificate"]}
{"id": "C69", "title": "AnyOverlap/InexactOverlap decide memory overlap", "statement": "AnyOverlap(x,y) iff the byte ranges intersect; InexactOverlap iff they intersect and do not start at the same address.", "quantifier": "all slices", "why_tests_cant": "infinite", "anchors": ["internal/subtle/aliasing.go"]}
{"id": "C70", "title": "Verify finds a chain whenever a valid one exists", "statement": "If the pools contain a valid path from the certificate to a root for the given options, Verify returns at least one chain.", "quantifier": "all certificates, pools, options", "why_tests_cant": "depends on the exploration order of all certificate graphs and on the chain cache", "anchors": ["x509/verify.go:buildChains(cache),Verify"]}
{"id": "C71", "title": "Decryption uses the labelled cipher", "statement": "A PKCS#8 block whose encryption scheme is labelled AES-128-CBC is decrypted with AES-128 (a 16-byte derived key).", "quantifier": "all encrypted PEM blocks and passwords", "why_tests_cant": "ranges over all blocks, passwords and key-derivation parameters", "anchors": ["x509/pem_decrypt.go:DecryptPEMBlock"]}
{"id": "C72", "title": "Bytes read are the bytes written, for every fragmentation and buffer size", "statement": "If one end Writes any sequence of buffers and the other end, in sync with it, receives the resulting bytes split in any way into network reads with temporary errors anywhere, then successive Reads return exactly the written bytes in order; each Read returns new data, a temporary error, or EOF, and EOF only after everything was delivered; enough Reads deliver everything.", "quantifier": "all buffer sequences, suites in sync, explicit IVs, schedules, Read buffer sizes", "why_tests_cant": "all interleavings of record splitting, transport fragmentation and read sizes", "anchors": ["tls/conn.go:Write,Read,readRecord,writeRecordLocked"]}
{"id": "C73", "title": "Imported public keys are points of the curve", "statement": "ParsePKIXPublicKey and PEMtoPublicKey return an SM2 public key only if its coordinates are in range and satisfy the curve equation.", "quantifier": "all byte strings, passwords and cipher implementations", "why_tests_cant": "invalid-curve inputs range over all byte strings", "anchors": ["x509/x509.go:ParsePKIXPublicKey,parsePublicKey", "utils/keys.go:PEMtoPublicKey"]}
{"id": "C74", "title": "A peer's ClientKeyExchange never crashes the server", "statement": "processClientKeyExchange returns either a pre-master secret or an error, and never panics, for every ClientKeyExchange body a peer can send.", "quantifier": "all byte strings", "why_tests_cant": "malformed inputs are infinite", "anchors": ["tls/gm_key_agreement.go:processClientKeyExchange", "sm2/sm2enc.go:Decrypt"]}
{"id": "C75", "title": "Certificate, request, verify and key-exchange parsers are strict", "statement": "Whenever unmarshal of a Certificate, CertificateRequest (standard and GM), CertificateVerify or ClientKeyExchange message accepts a byte string, that byte string is, after its type byte, exactly the length-prefixed encoding of the message returned: no byte is ignored, and two different bodies never decode to the same message.", "quantifier": "all byte strings shorter than 2^32", "why_tests_cant": "non-canonical encodings form an infinite set", "anchors": ["tls/handshake_messages.go:certificateMsg.unmarshal,certificateRequestMsg.unmarshal,certificateVerifyMsg.unmarshal,clientKeyExchangeMsg.unmarshal", "tls/gm_handshake_messages.go:certificateRequestMsgGM.unmarshal"]}
{"id": "C76", "title": "An unset MinVersion means TLS 1.0", "statement": "With Config.MinVersion = 0 no version below TLS 1.0 is ever negotiated (documentation of MinVersion).", "quantifier": "all configs and client versions", "why_tests_cant": "2^32 combinations", "anchors": ["tls/common.go:MinVersion,mutualVersion"]}
{"id": "C78", "title": "Mismatched GM key pairs are refused", "statement": "GMX509KeyPairs fails unless each private key belongs to its certificate.", "quantifier": "all PEM inputs", "why_tests_cant": "infinite inputs", "anchors": ["tls/gm_support.go:GMX509KeyPairs,matchKeyCert"]}
{"id": "C79", "title": "Session ticket keys follow the documentation", "statement": "After serverInit the ticket keys are: those already set; else, for a config returned by GetConfigForClient, the original's explicitly set keys, or the returned config's own SessionTicketKey; else the configured or a random key.", "quantifier": "all configs", "why_tests_cant": "state combinations", "anchors": ["tls/common.go:serverInit"]}
{"id": "C80", "title": "Enabled session tickets always have a key", "statement": "After serverInit either tickets are disabled or there is at least one ticket key, so issuing a ticket cannot crash.", "quantifier": "all configs", "why_tests_cant": "state combinations", "anchors": ["tls/common.go:serverInit,SetSessionTicketKeys", "tls/ticket.go:encryptTicket"]}
{"id": "C81", "title": "BuildNameToCertificate makes every certificate reachable by its names", "statement": "After BuildNameToCertificate a client asking for any name of one of the certificates (compared case-insensitively) is served a certificate carrying that name.", "quantifier": "all certificate lists and names", "why_tests_cant": "infinite", "anchors": ["tls/common.go:BuildNameToCertificate,getCertificate"]}
{"id": "C82", "title": "Only authentic records of the negotiated version and legal size are delivered", "statement": "Application data handed to the reader always is the decryption of one authenticated application_data record with the negotiated version and at most 18432 body and 16384 plaintext bytes, received after the handshake and preceded only by tolerated warning alerts; any other record ends the reading side with the documented alert and delivers nothing.", "quantifier": "all byte streams, fragmentations, cipher states", "why_tests_cant": "all peer behaviours", "anchors": ["tls/conn.go:readRecord,decrypt"]}
{"id": "C83", "title": "A server that reports success has followed the protocol and checked the client's Finished", "statement": "Whenever a GMSSL server's Handshake returns nil for a full handshake, the messages it sent and received are exactly those GM/T 0024 prescribes, in order, with the optional ones exactly when negotiated; no alert was sent; the Finished message it accepted carries the client verify_data of SM3 over every handshake message exchanged before it, keyed by the master secret, and the Finished it sent carries the server verify_data of everything before it.", "quantifier": "all peers (any sequence of messages, including malformed and reordered ones), configurations, transports and random draws", "why_tests_cant": "the set of peer behaviours is infinite", "anchors": ["tls/gm_handshake_server_double.go:serverHandshakeGM,doFullHandshake,readFinished,sendFinished", "tls/prf.go:clientSum,serverSum"]}
{"id": "C84", "title": "The server's secrets are the standard ones for the parameters it announced", "statement": "After a successful full handshake the server's connection uses the suite, version and randoms that its ServerHello announced and that the client offered, the master secret is the PRF of the pre-master secret obtained by decrypting the ClientKeyExchange with the second certificate's key, and the six connection keys are the consecutive pieces of the key block.", "quantifier": "all peers, configurations, random draws", "why_tests_cant": "infinite", "anchors": ["tls/gm_handshake_server_double.go:readClientHello,doFullHandshake,establishKeys"]}
{"id": "C85", "title": "Client authentication is enforced", "statement": "A server configured with RequireAnyClientCert or RequireAndVerifyClientCert never completes a full handshake without a client certificate; when verification is configured the leaf has a valid chain to the configured (or system) roots at the configured time with client-auth usage; and whenever a certificate was presented the client has signed the whole transcript up to that point with the leaf's key.", "quantifier": "all peers and configurations", "why_tests_cant": "must hold against every malicious client", "anchors": ["tls/gm_handshake_server_double.go:doFullHandshake,processCertsFromClient"]}
{"id": "C86", "title": "A client that reports success has followed the protocol and checked the server's Finished", "statement": "Whenever a GMSSL client's Handshake returns nil for a full handshake, the messages follow the GM/T 0024 flow, the ClientHello offers only configured GM suites at version 1.1, the ServerHello chose one of them, the server's Finished carries the verify_data of the whole transcript, and for the ECC suite master secret and keys are the standard functions of a pre-master secret encrypted to the server's second certificate.", "quantifier": "all servers (arbitrary messages), configurations, random draws", "why_tests_cant": "infinite peer behaviours", "anchors": ["tls/gm_handshake_client_double.go", "tls/handshake_client.go:clientHandshake"]}
{"id": "C87", "title": "Server authentication is enforced", "statement": "A client without InsecureSkipVerify completes a full handshake only if every certificate presented by the server chains to the configured roots for the configured name and time, the first may sign and the second may encrypt, all keys are SM2, and the server has signed both randoms and the encryption certificate with the first certificate's key.", "quantifier": "all servers", "why_tests_cant": "must hold against every malicious server", "anchors": ["tls/gm_handshake_client_double.go:doFullHandshake", "tls/gm_key_agreement.go:processServerKeyExchange"]}
{"id": "C88", "title": "A client resumes only the session it offered", "statement": "When Handshake reports a resumed session, the client had offered exactly this cached session's ticket, the server echoed the client's session id, version and suite equal the cached ones, the master secret, peer certificates and chains are the cached ones, and the server's Finished proves knowledge of that master secret.", "quantifier": "all servers, caches, configurations", "why_tests_cant": "infinite peer behaviours", "anchors": ["tls/gm_handshake_client_double.go:processServerHello,serverResumedSession", "tls/handshake_client.go:clientHandshake"]}
{"id": "C89", "title": "Client and server agree", "statement": "If a client and a server complete a full handshake with each other and the client's second certificate belongs to the server's encryption key, they agree on version, suite, both randoms, the master secret and all six record keys.", "quantifier": "all configurations, random draws, certificates and transports", "why_tests_cant": "two-party property over all executions", "anchors": ["tls/gm_handshake_client_double.go", "tls/gm_handshake_server_double.go", "tls/gm_key_agreement.go"]}
{"id": "C90", "title": "A tampered handshake is detected", "statement": "If both ends complete with the same master secret and the client accepted the Finished the server sent, then every handshake message was received as it was sent, unless the two different transcripts collide under SM3 or under the Finished PRF.", "quantifier": "all man-in-the-middle modifications of the message stream", "why_tests_cant": "infinite adversary behaviours", "anchors": ["tls/gm_handshake_client_double.go:readFinished", "tls/gm_handshake_server_double.go:readFinished", "tls/prf.go"]}
{"id": "C77", "title": "No client can crash the server", "statement": "No sequence of messages a client sends makes a GMSSL server's Handshake panic.", "quantifier": "all clients, configurations, random draws", "why_tests_cant": "infinite peer behaviours", "anchors": ["tls/gm_handshake_server_double.go:doFullHandshake", "tls/gm_key_agreement.go:ecdheKeyAgreementGM"]}
{"id": "C91", "title": "Honest ends complete", "statement": "A GMSSL client and server with matching configurations - two SM2 certificates with the right key usages that chain to the client's roots, a common ECC suite - both complete the handshake with each other, with the same master secret and keys, with or without a client certificate.", "quantifier": "all configurations meeting the readiness conditions, all random draws (except the ones for which SM2 itself fails)", "why_tests_cant": "infinitely many configurations and draws; keys and certificates vary", "anchors": ["tls/gm_handshake_client_double.go", "tls/gm_handshake_server_double.go"]}
{"id": "C92", "title": "A successful client has checked a server signature", "statement": "Whenever a GMSSL client's full handshake returns nil, it has verified a ServerKeyExchange signature under the server's signing certificate.", "quantifier": "all servers", "why_tests_cant": "infinite peer behaviours", "anchors": ["tls/gm_handshake_client_double.go:doFullHandshake"]}
{"id": "C94", "title": "A server resumes the sessions it issued tickets for", "statement": "A server with session tickets enabled and the default cipher suites resumes a session when a client presents an unexpired ticket issued by it.", "quantifier": "all histories of issued tickets, clients, configurations", "why_tests_cant": "ranges over histories", "anchors": ["tls/gm_handshake_server_double.go:checkForResumption,setCipherSuite", "tls/common.go:cipherSuites"]}
{"id": "C95", "title": "VerifiedChains start at the first peer certificate", "statement": "After a successful GMSSL client handshake every chain in ConnectionState.VerifiedChains has PeerCertificates[0] as its first element, as ConnectionState documents.", "quantifier": "all servers and certificate lists", "why_tests_cant": "all chains", "anchors": ["tls/gm_handshake_client_double.go:doFullHandshake", "tls/common.go:ConnectionState"]}
{"id": "C96", "title": "A server resumes only sessions it issued", "statement": "When a GMSSL server's Handshake reports a resumed session, the ClientHello carried a ticket that decrypts under one of the configured ticket keys to a session of the negotiated version whose suite the client offers again and the configuration allows; master secret and client certificates are the session's, and the certificates satisfy the present client-authentication policy; the messages follow the abbreviated flow and both Finished messages are checked against the transcript.", "quantifier": "all clients, tickets, configurations and random draws", "why_tests_cant": "infinite peer behaviours", "anchors": ["tls/gm_handshake_server_double.go:checkForResumption,doResumeHandshake", "tls/ticket.go:decryptTicket"]}
{"id": "C97", "title": "Resumption between this library's client and server works", "statement": "A client of this library that offers a cached session to a server of this library that resumes it completes the abbreviated handshake with it.", "quantifier": "all sessions, configurations and random draws", "why_tests_cant": "ranges over all histories of two parties", "anchors": ["tls/gm_handshake_server_double.go:doResumeHandshake", "tls/gm_handshake_client_double.go:handshake", "tls/prf.go:newFinishedHash,newFinishedHashGM"]}
{"id": "C93", "title": "No server can crash the client", "statement": "No sequence of handshake messages a server sends makes a GMSSL client's Handshake panic: it returns an error or completes (or waits).", "quantifier": "all servers (message sequences), client configurations, cached sessions and random draws", "why_tests_cant": "infinite peer behaviours", "anchors": ["tls/gm_handshake_client_double.go:clientHandshakeGM,doFullHandshake", "tls/gm_key_agreement.go:generateClientKeyExchange"]}
{"id": "C98", "title": "A certificate made with an SM2 key verifies", "statement": "A certificate CreateCertificate makes with an SM2 key parses, and CheckSignatureFrom accepts it under any parent that carries the signer's public key and may sign certificates - for every template, every key and every random draw (except the ones for which SM2 itself would have to draw again).", "quantifier": "all templates, parents, keys, random draws", "why_tests_cant": "infinitely many templates, keys and draws", "anchors": ["x509/x509.go:CreateCertificate,ParseCertificate,CheckSignatureFrom,checkSignature"]}
{"id": "C99", "title": "A parsed certificate carries its template", "statement": "ParseCertificate of what CreateCertificate made returns version 3, the template's serial number, names, validity, public key, signature algorithm and every extension field (with the documented normalisations), and all extensions in order with ExtraExtensions last.", "quantifier": "all templates, parents, keys of all supported kinds", "why_tests_cant": "infinitely many templates", "anchors": ["x509/x509.go:CreateCertificate,buildExtensions,parseCertificate"]}
{"id": "C100", "title": "Key usages survive", "statement": "The KeyUsage of a parsed certificate is the one its template asked for; in particular a restricted certificate is not read as unrestricted.", "quantifier": "all key usage values", "why_tests_cant": "all integers", "anchors": ["x509/x509.go:reverseBitsInAByte,asn1BitLength,buildExtensions,parseCertificate"]}
{"id": "C101", "title": "Everything a certificate says is signed", "statement": "Two certificates with the same signed bytes (RawTBSCertificate) parse to the same fields, whatever the rest of the two encodings is; and the unsigned outer algorithm must agree with the signed one.", "quantifier": "all pairs of DER encodings", "why_tests_cant": "infinitely many encodings", "anchors": ["x509/x509.go:parseCertificate,ParseCertificate"]}
{"id": "C102", "title": "Critical extensions that are not understood are reported", "statement": "Every critical extension this package does not interpret is listed in UnhandledCriticalExtensions, and nothing else is (except a critical subject alternative name of no understood kind); critical name constraints the package cannot express are refused.", "quantifier": "all DER encodings", "why_tests_cant": "infinitely many encodings", "anchors": ["x509/x509.go:parseCertificate"]}
{"id": "C103", "title": "The signature algorithm must fit the key", "statement": "CheckSignature with an SM2 key accepts only SM2 signature algorithms.", "quantifier": "all algorithms, keys, messages, signatures", "why_tests_cant": "infinitely many messages", "anchors": ["x509/x509.go:checkSignature"]}
{"id": "C104", "title": "Only certificate signers sign certificates", "statement": "CheckSignatureFrom succeeds only if the parent is a CA (or older than version 3), its key usage - if any - includes certificate signing, and the signature verifies under its key.", "quantifier": "all certificates and parents", "why_tests_cant": "infinitely many certificates", "anchors": ["x509/x509.go:CheckSignatureFrom"]}
{"id": "C105", "title": "A certificate request round-trips and proves possession", "statement": "A request CreateCertificateRequest makes with an SM2 key parses to the template's subject, alternative names and extensions, with the signer's key, and its signature checks.", "quantifier": "all templates, keys, random draws", "why_tests_cant": "infinitely many templates, keys and draws", "anchors": ["x509/x509.go:CreateCertificateRequest,ParseCertificateRequest,CertificateRequest.CheckSignature"]}
{"id": "C106", "title": "Every request that is made is signed, and keeps its key", "statement": "CreateCertificateRequest either fails or returns a signed request; a request made with an SM2 key parses to an SM2 key.", "quantifier": "all templates and keys", "why_tests_cant": "infinitely many templates", "anchors": ["x509/x509.go:CreateCertificateRequest,parseCertificateRequest"]}
{"id": "C107", "title": "A revocation list round-trips and verifies", "statement": "A list CreateCRL makes with an SM2 key parses to the issuer, times and entries it was made from and CheckCRLSignature accepts it under the signer's key; this holds for every crypto.Signer with an SM2 public key.", "quantifier": "all lists of revoked certificates, issuers, times, keys, draws", "why_tests_cant": "infinitely many lists", "anchors": ["x509/x509.go:CreateCRL,ParseDERCRL,CheckCRLSignature"]}
{"id": "C108", "title": "Alternative names survive, and only names are names", "statement": "DNS names, email addresses and IP addresses of a template are those of the parsed certificate; a DNS name of a parsed certificate was encoded as a dNSName; a certificate CreateCertificate returns can be parsed.", "quantifier": "all lists of names and addresses, all DER encodings", "why_tests_cant": "infinitely many lists and encodings", "anchors": ["x509/x509.go:marshalSANs,parseSANExtension"]}
{"id": "C109", "title": "No input crashes the certificate code", "statement": "ParseCertificate, ParseCertificates, ParseDERCRL, ParseCertificateRequest and ParsePKIXPublicKey return a value or an error for every byte string, and checking the signature of a parsed certificate under a parsed certificate does not panic.", "quantifier": "all byte strings", "why_tests_cant": "infinitely many inputs", "anchors": ["x509/x509.go:ParseCertificate,ParseCertificates,ParseDERCRL,ParseCertificateRequest,ParsePKIXPublicKey,checkSignature"]}
{"id": "C110", "title": "Malformed certificates are neither made nor accepted", "statement": "CreateCertificate refuses with an error what it cannot express; ParseCertificate refuses certificates with repeated extensions or with elements that do not belong there.", "quantifier": "all templates, all DER encodings", "why_tests_cant": "infinitely many inputs", "anchors": ["x509/x509.go:buildExtensions,parseCertificate"]}
{"id": "C111", "title": "Concurrent calls never deadlock", "statement": "However Handshake, Read, Write, CloseWrite and ConnectionState are called concurrently on one connection, a call that has not returned can always go on, or waits for a call that can: no set of calls wait for each other's locks. In particular a renegotiation inside Read and a concurrent Handshake do not block each other.", "quantifier": "all sets of calls, all schedules, all behaviours of peer and transport, all renegotiation settings", "why_tests_cant": "schedules cannot be enumerated", "anchors": ["tls/conn.go:Conn.Handshake,Conn.Read,Conn.Write,Conn.CloseWrite,Conn.ConnectionState,handleRenegotiation"]}
{"id": "C112", "title": "Concurrent calls share one first handshake", "statement": "The first handshake of a connection is run at most once however many calls start concurrently; no Read returns data and no Write sends any before a handshake has succeeded; without renegotiation all calls see the same outcome.", "quantifier": "all sets of calls, all schedules", "why_tests_cant": "schedules cannot be enumerated", "anchors": ["tls/conn.go:Conn.Handshake,Conn.Read,Conn.Write"]}
{"id": "C113", "title": "A failed handshake is final", "statement": "Once a call has returned a handshake error, every call made afterwards returns this error, and none of them writes anything.", "quantifier": "all histories and schedules", "why_tests_cant": "unbounded histories", "anchors": ["tls/conn.go:Conn.Handshake,Conn.Read,Conn.Write,handleRenegotiation"]}
{"id": "C114", "title": "Renegotiation is limited as configured", "statement": "A server, and a client with RenegotiateNever, run at most one handshake per connection; a client with RenegotiateOnceAsClient at most two; whatever the peer sends.", "quantifier": "all histories, schedules and peers", "why_tests_cant": "unbounded histories", "anchors": ["tls/conn.go:handleRenegotiation,readRecord", "tls/common.go:RenegotiationSupport"]}
{"id": "C115", "title": "One writer at a time", "statement": "No two calls write records to the underlying connection at the same time.", "quantifier": "all sets of calls, all schedules", "why_tests_cant": "schedules cannot be enumerated; a race needs a particular interleaving", "anchors": ["tls/conn.go:Conn.Write,sendAlertLocked,readHandshake,flush"]}
{"id": "C116", "title": "An established connection stays established", "statement": "After a successful Handshake, ConnectionState reports completion and no Write fails because the handshake is not complete.", "quantifier": "all schedules", "why_tests_cant": "schedules cannot be enumerated", "anchors": ["tls/conn.go:Conn.Write,Conn.ConnectionState,handleRenegotiation"]}
{"id": "C118", "title": "Reading a handshake message is bounded", "statement": "Whatever the peer sends, and however the network cuts it, reading one handshake message ends; the message returned has exactly the length its header declares, at most 65540 bytes, and is made of whole records opened in order with the keys in force, with nothing lost, added or reordered; at most 81923 bytes of handshake data are buffered; a longer message is refused with an internal_error alert, after which nothing more is read.", "quantifier": "all peers, all byte streams, all fragmentations, all states", "why_tests_cant": "unbounded streams and fragmentations", "anchors": ["tls/conn.go:Conn.readHandshake,Conn.readRecord", "tls/common.go:maxHandshake"]}
{"id": "C119", "title": "A completed handshake protects both directions", "statement": "When a GM handshake completes over the record layer, for whatever peer, the reading half and the writing half both use SM4-CBC and HMAC-SM3 with the keys of the key block this handshake derived, each side reading with the keys the other writes with, with no older keys and no keys waiting; no error is pending.", "quantifier": "all peers, all byte streams, all fragmentations, all configurations", "why_tests_cant": "unbounded streams; a peer may send records of any type in any order", "anchors": ["tls/gm_handshake_client_double.go:establishKeys,readFinished", "tls/gm_handshake_server_double.go:establishKeys,readFinished", "tls/conn.go:changeCipherSpec,readRecord,writeRecordLocked"]}
{"id": "C117", "title": "Handshake messages survive any fragmentation", "statement": "A sequence of handshake messages cut into handshake records in any way - one message over many records, many messages in one record - sealed with keys in sync with the reader's, and cut by the network in any way, is returned by readHandshake message by message, unchanged, with nothing left over; in particular what this library's record layer writes.", "quantifier": "all message sequences within the size limit, all fragmentations, all keys, all network schedules without temporary errors", "why_tests_cant": "unboundedly many fragmentations", "anchors": ["tls/conn.go:Conn.readHandshake,Conn.readRecord,Conn.writeRecordLocked"]}
{"id": "C120", "title": "From the first handshake byte to the last data byte", "statement": "A GMSSL client and server that complete the handshake on messages also complete it over the record layer when each receives the bytes the other wrote, however the network cuts them, with the same results; then both can write any data, and what each one reads is exactly what the other one wrote, in order, then end of file.", "quantifier": "all configurations, certificates, keys, data, record sizes (dynamic or not), explicit IVs, network schedules without temporary errors", "why_tests_cant": "unboundedly many schedules and data; depends on the two ends' states staying in step through key changes", "anchors": ["tls/gm_handshake_client_double.go", "tls/gm_handshake_server_double.go", "tls/conn.go"]}
{"id": "C121", "title": "The ordinary TLS server completes only over the whole TLS 1.0-1.2 exchange", "statement": "An ordinary (non-GM) TLS server reports success only after exactly the messages of the full handshake (ClientHello, ServerHello, Certificate, the stapled CertificateStatus iff negotiated, ServerKeyExchange iff the suite is ECDHE, CertificateRequest iff configured, ServerHelloDone, Certificate iff requested, ClientKeyExchange, CertificateVerify iff the client presented a certificate, ChangeCipherSpec, NextProtocol iff negotiated, Finished, the ticket iff negotiated, ChangeCipherSpec, Finished) or of the abbreviated one, in that order and with nothing else; the client's Finished it accepted and its own Finished are the RFC values over the transcript so far.", "quantifier": "all configurations, clients, message contents, versions SSL 3.0 - TLS 1.2, suites, ticket keys", "why_tests_cant": "The client is an arbitrary, adversarial channel: unboundedly many message sequences", "anchors": ["tls/handshake_server.go:Conn.serverHandshake,serverHandshakeState.doFullHandshake,serverHandshakeState.doResumeHandshake,serverHandshakeState.readFinished,serverHandshakeState.sendFinished"]}
{"id": "C122", "title": "The ordinary TLS server negotiates what both sides allow", "statement": "A completed ordinary TLS server handshake runs at the lower of the client's version and its own maximum, never below its minimum, with null compression, an empty renegotiation extension, a suite offered by the client and configured by the server, usable at that version with the certificate key and a common curve; in a full handshake it is the first such suite in the configured order of preference and a fallback client below the server's maximum is refused; ALPN is the first of the server's protocols the client offered; the ServerHello says exactly this.", "quantifier": "all configurations (including GetConfigForClient), client hellos, certificates", "why_tests_cant": "all offers and configurations", "anchors": ["tls/handshake_server.go:serverHandshakeState.readClientHello,serverHandshakeState.checkForResumption,serverHandshakeState.setCipherSuite"]}
{"id": "C123", "title": "An ordinary TLS server that demands client certificates gets an authenticated client", "statement": "After a completed full handshake of an ordinary TLS server: RequireAndVerify/RequireAny imply a peer certificate; the peer certificates are the ones received; with verification on, the chains reported lead from the leaf to the configured roots through the received intermediates with the client-auth usage at the configured time; and a CertificateVerify signature was checked, with the leaf's key and an algorithm allowed for that key and version, over the transcript up to that message.", "quantifier": "all configurations, clients, certificates, versions, keys", "why_tests_cant": "adversarial client", "anchors": ["tls/handshake_server.go:serverHandshakeState.processCertsFromClient,serverHandshakeState.doFullHandshake", "tls/auth.go:pickSignatureAlgorithm,verifyHandshakeSignature"]}
{"id": "C124", "title": "The ordinary TLS server's secrets", "statement": "In a full handshake the master secret is the PRF of the premaster secret the client key exchange carries: for RSA suites what the certificate key decrypts, for ECDHE suites the shared secret of the server's fresh key and the client's point, on the first of the server's curves the client offered; the server's parameters went out signed, with an algorithm the client offered and bound to both randoms; the keys installed are the slices of the key expansion in the order of the RFC.", "quantifier": "all configurations, clients, keys, curves", "why_tests_cant": "all inputs of the key exchange", "anchors": ["tls/key_agreement.go:rsaKeyAgreement.processClientKeyExchange,ecdheKeyAgreement.generateServerKeyExchange,ecdheKeyAgreement.processClientKeyExchange", "tls/prf.go:masterFromPreMasterSecret,keysFromMasterSecret"]}
{"id": "C125", "title": "The ordinary TLS server resumes only its own sessions", "statement": "An abbreviated handshake completes only for a ticket that decrypts under the server's ticket keys, whose version and suite are the ones negotiated, offered again by the client, and whose client certificates still satisfy the client authentication policy (re-verified); master secret and peer certificates come from the ticket.", "quantifier": "all configurations, tickets, clients", "why_tests_cant": "adversarial tickets", "anchors": ["tls/handshake_server.go:serverHandshakeState.checkForResumption,serverHandshakeState.doResumeHandshake"]}
{"id": "C126", "title": "The ordinary TLS client completes only over the whole exchange and within what it offered", "statement": "An ordinary TLS client (first handshake or renegotiation) reports success only after exactly the messages of the full or the abbreviated TLS 1.0-1.2 handshake, in order, each optional message exactly under its negotiated condition; its ClientHello carries its highest version, its own fresh random, exactly the configured suites usable at that version, the configured protocols, curves and server name; the suite used was offered, the version is at least its minimum and one of TLS 1.0-1.2, compression is null, NPN picks the first server protocol it supports (or its own first); both Finished values are the RFC values over the transcript.", "quantifier": "all configurations, servers, message contents, cached sessions, previous handshakes", "why_tests_cant": "The server is an arbitrary, adversarial channel: unboundedly many message sequences", "anchors": ["tls/handshake_client.go:makeClientHello,Conn.clientHandshake,clientHandshakeState.handshake,clientHandshakeState.doFullHandshake,clientHandshakeState.processServerHello,clientHandshakeState.readFinished,clientHandshakeState.sendFinished"]}
{"id": "C127", "title": "The ordinary TLS client authenticates the server", "statement": "After a completed full first handshake the peer certificates are the ones received, the leaf key is RSA or ECDSA, and unless verification is switched off the leaf is valid for the configured server name and the reported chains lead from it to the configured (or system) roots through received intermediates, at the configured time, with the server-auth usage; a VerifyPeerCertificate callback accepted exactly these certificates and chains.", "quantifier": "all configurations, servers, certificates, root pools", "why_tests_cant": "adversarial server", "anchors": ["tls/handshake_client.go:clientHandshakeState.doFullHandshake"]}
{"id": "C128", "title": "The ordinary TLS client's secrets", "statement": "In a full handshake the master secret is the PRF of the premaster the client chose: for RSA suites its highest version followed by fresh random bytes, sent encrypted to the leaf's RSA key; for ECDHE suites the shared secret of a fresh key with the point of the server's parameters, whose signature by the leaf's key over both randoms and the parameters was checked with an algorithm the client offered; a CertificateVerify it sends is the configured key's signature over the transcript up to it; the installed keys are the slices of the key expansion.", "quantifier": "all configurations, servers, keys, curves, random sources", "why_tests_cant": "all inputs of the key exchange", "anchors": ["tls/key_agreement.go:rsaKeyAgreement.generateClientKeyExchange,ecdheKeyAgreement.processServerKeyExchange,ecdheKeyAgreement.generateClientKeyExchange", "tls/handshake_client.go:clientHandshakeState.establishKeys"]}
{"id": "C129", "title": "Renegotiation is bound to the previous handshake", "statement": "The client's ClientHello of a renegotiation carries the client Finished of the previous handshake; if the server announced secure renegotiation the ServerHello must echo both Finished values; the leaf certificate must be byte-identical to the previous one and the reported peer and chains are unchanged; in a first handshake both extensions are empty. The Finished values remembered for the next renegotiation are the 12 bytes sent and received.", "quantifier": "all servers, configurations and previous handshakes", "why_tests_cant": "adversarial server; histories of handshakes", "anchors": ["tls/handshake_client.go:clientHandshakeState.processServerHello,clientHandshakeState.doFullHandshake", "tls/conn.go:Conn.clientFinished,Conn.serverFinished"]}
{"id": "C130", "title": "The ordinary TLS client resumes and stores only sessions of this server", "statement": "An abbreviated handshake completes only in a first handshake, for the session the cache returned, whose ticket was sent, at exactly its version and suite, the server echoing the fresh session id; master secret, peer and chains are the session's. A session is stored only if a ticket was negotiated and received, under the server name (or address), with the version, suite, secret and certificates of this handshake.", "quantifier": "all configurations, servers, cached sessions", "why_tests_cant": "adversarial server; cache contents are arbitrary", "anchors": ["tls/handshake_client.go:Conn.clientHandshake,clientHandshakeState.serverResumedSession,clientHandshakeState.processServerHello,clientHandshakeState.readSessionTicket,clientSessionCacheKey"]}
{"id": "C131", "title": "An ordinary TLS client and server that complete the same handshake agree", "statement": "If a client and a server complete a handshake and both saw the same messages, they agree on whether it was resumed, on version, suite and randoms; after a full handshake they hold the same master secret and the same keys (given that the server's key decrypts what is encrypted for its certificate and that Diffie-Hellman commutes); after a resumed one the same keys whenever they remembered the same master secret.", "quantifier": "all configurations, versions TLS 1.0-1.2, suites, curves, random sources, record layers", "why_tests_cant": "a relation between two independent executions over all inputs", "anchors": ["tls/handshake_client.go", "tls/handshake_server.go", "tls/key_agreement.go"]}
{"id": "C132", "title": "Tampering with an ordinary TLS handshake is noticed", "statement": "If both ends hold the same master secret and the last Finished message accepted by one end is one the other end sent, then both ends saw exactly the same messages, unless two different transcripts have the same verify data (a collision).", "quantifier": "all attackers between client and server, all configurations", "why_tests_cant": "adversarial network", "anchors": ["tls/prf.go:finishedHash.clientSum,finishedHash.serverSum", "tls/handshake_client.go:clientHandshakeState.readFinished", "tls/handshake_server.go:serverHandshakeState.readFinished"]}
{"id": "C133", "title": "No client can crash an ordinary TLS server", "statement": "Whatever messages a client sends, in any order, the handshake of an ordinary TLS server ends in success or an error, never in a Go panic.", "quantifier": "all server configurations, all client messages, random sources and record layers", "why_tests_cant": "adversarial peer, unbounded message sequences", "anchors": ["tls/handshake_server.go:Conn.serverHandshake", "tls/prf.go:newFinishedHash,prfAndHashForVersion", "tls/common.go:Config.mutualVersion"]}
{"id": "C134", "title": "No server can crash an ordinary TLS client", "statement": "Whatever messages a server sends, in any order, the handshake of an ordinary TLS client ends in success or an error, never in a Go panic.", "quantifier": "all client configurations, all server messages, cached sessions, earlier handshakes, random sources and record layers", "why_tests_cant": "adversarial peer, unbounded message sequences", "anchors": ["tls/handshake_client.go:Conn.clientHandshake", "tls/key_agreement.go:rsaKeyAgreement.generateClientKeyExchange", "tls/handshake_client.go:Conn.getClientCertificate"]}
{"id": "C135", "title": "A loaded key pair fits together", "statement": "X509KeyPair succeeds exactly when the certificate text holds at least one CERTIFICATE block, the key text holds a block whose type is PRIVATE KEY or ends in ' PRIVATE KEY', the first certificate and the first such key parse, and the certificate's public key is the public half of that private key; it then returns all CERTIFICATE blocks in order, and that key. An SM2 pair it accepts signs messages that verify under the certificate's key. It never panics.", "quantifier": "all certificate and key texts, PEM decoders, random draws and messages", "why_tests_cant": "unbounded malformed or mismatched inputs", "anchors": ["tls/tls.go:X509KeyPair,parsePrivateKey", "x509/pkcs1.go:ParsePKCS1PrivateKey", "x509/pkcs8.go:ParsePKCS8PrivateKey", "x509/sec1.go:ParseECPrivateKey"]}
{"id": "C136", "title": "Dialling returns a finished connection or closes it", "statement": "DialWithDialer returns a connection only if its handshake has ended without error, and never closes one it returned; if it returns an error, a raw connection it opened has been closed. Whichever comes first, the handshake's end or the time limit (the smaller of Timeout and Deadline), decides; no goroutine it starts is left blocked, and the caller waiting with a time limit can always go on once either has happened. The server name checked is the one configured, or else the address up to its last colon. Listen refuses a configuration with no way to get a certificate.", "quantifier": "all schedules of the caller, the timer and the handshake goroutine, all results of dialling and of the handshake, all time limits and addresses", "why_tests_cant": "concurrency: every interleaving of the timer and the handshake", "anchors": ["tls/tls.go:DialWithDialer,Dial,Listen"]}
{"id": "C137", "title": "An IP address is not sent as a server name", "statement": "The server name in an ordinary client's ClientHello is empty when the configured name stands for an IP address (alone, in brackets, with a zone), and otherwise the configured name without its trailing dots.", "quantifier": "all configured names and client configurations, every ParseIP", "why_tests_cant": "all strings", "anchors": ["tls/handshake_client.go:hostnameInSNI,makeClientHello"]}
{"id": "C138", "title": "The ordinary TLS client uses only what it offered", "statement": "Every parameter a completed handshake of an ordinary TLS client uses - cipher suite, application protocol, key exchange group, signature algorithm - is one its ClientHello offered, and the suite is one defined for the negotiated version.", "quantifier": "all client configurations, servers and message contents", "why_tests_cant": "The server is an arbitrary, adversarial channel", "anchors": ["tls/handshake_client.go:processServerHello,pickCipherSuite", "tls/key_agreement.go:ecdheKeyAgreement.processServerKeyExchange"]}
{"id": "C139", "title": "System roots are exactly the certificates of the configured files", "statement": "AppendCertsFromPEM adds exactly the parsable, header-less CERTIFICATE blocks of a PEM text, in order, each once, and tells whether there was one. The system roots are the certificates of the first readable root file and of the first root directory that has any; SSL_CERT_FILE and SSL_CERT_DIR replace the built-in lists and nothing else is read; SystemCertPool returns a pool or an error.", "quantifier": "all PEM texts, pools, file systems (readable, missing and failing files) and environment values", "why_tests_cant": "Texts, directories and file systems are unbounded", "anchors": ["x509/cert_pool.go:AppendCertsFromPEM,SystemCertPool", "x509/root_unix.go:loadSystemRoots", "x509/root_linux.go"]}
{"id": "C140", "title": "RSA keys survive MarshalPKCS1PrivateKey and ParsePKCS1PrivateKey", "statement": "MarshalPKCS1PrivateKey writes the RSAPrivateKey structure of RFC 8017, and ParsePKCS1PrivateKey reads back the same modulus, exponents and primes, for any number of primes. Parsing ignores the exponents and coefficients in the structure, refuses trailing data, non-positive numbers, versions above 1 and keys rsa.Validate refuses, and never panics. Every key it accepts can be marshalled.", "quantifier": "all RSA keys (any sizes and numbers of primes) and all byte strings", "why_tests_cant": "Keys, numbers of primes and inputs are unbounded", "anchors": ["x509/pkcs1.go:ParsePKCS1PrivateKey,MarshalPKCS1PrivateKey"]}
{"id": "C141", "title": "EC keys survive MarshalECPrivateKey and ParseECPrivateKey", "statement": "MarshalECPrivateKey writes the ECPrivateKey structure of RFC 5915 with fixed-width scalar and point, and ParseECPrivateKey reads back the same curve, scalar and point, in particular for every SM2 key. The parser computes the point itself (the embedded public key is ignored), ignores anything after the structure, and never panics. A structure is accepted exactly if its version is 1, it names one of the curves and its scalar is below the order. Values of other types and unknown curves are refused by the writer, which panics on a scalar that is too large.", "quantifier": "all EC keys on the named curves, all byte strings, all trailing data", "why_tests_cant": "Every scalar, leading zeros included, and every input", "anchors": ["x509/sec1.go:MarshalECPrivateKey,ParseECPrivateKey"]}
{"id": "C142", "title": "AEAD records: no nonce is used twice, and what is sealed is what is opened", "statement": "Under an AES-GCM suite every record written carries its part of the data sealed under the fixed nonce followed by the 64-bit sequence number, which is also sent (RFC 5288); under a ChaCha20-Poly1305 suite under the fixed nonce xor the sequence number (RFC 7905); always with sequence number, type, version and plaintext length authenticated. No two records of a connection direction share a nonce. A record is accepted exactly if the AEAD opens it so, and a reader in step gets back the part; the mutable nonce inside the cipher object never leaks from one call into another.", "quantifier": "all data, record types, versions, sequence numbers up to 2^64, received records, and histories of Seal and Open calls", "why_tests_cant": "Nonce reuse after any number of records; every length and every forged record", "anchors": ["tls/cipher_suites.go:fixedNonceAEAD,xorNonceAEAD,aeadAESGCM,aeadChaCha20Poly1305", "tls/conn.go:encrypt,decrypt,writeRecordLocked"]}
{"id": "C143", "title": "A record's MAC depends on that record alone", "statement": "In every history of MAC calls on one MAC object, each answer is HMAC (HMAC-SM3 in the GM suites) over sequence number, header and data, or the SSL 3.0 MAC, whatever was computed before and whatever the caller's buffer and the extra data hashed for constant timing; so the object is the stateless MAC the record layer is verified with.", "quantifier": "all keys, all histories of calls, all sequence numbers, headers, data, extra data and buffers", "why_tests_cant": "All histories and lengths", "anchors": ["tls/cipher_suites.go:tls10MAC.MAC,ssl30MAC.MAC,macSHA1,macSHA256,newConstantTimeHash", "tls/gm_support.go:macSM3", "sm3/sm3.go:ConstantTimeSum"]}
{"id": "C144", "title": "A GM certificate loaded from PEM files comes with its keys and its chain", "statement": "GMX509KeyPairs (and LoadGMX509KeyPairs) return a certificate only if the signing certificate matches the signing key and the encryption certificate the encryption key, and with it the intermediate certificates of the certificate text; GMX509KeyPairsSingle (and LoadGMX509KeyPair) do so for one certificate, and treat a certificate without an SM2 key as X509KeyPair does; the signing key returned makes signatures the certificate verifies; no text makes them panic.", "quantifier": "all certificate and key texts, all file contents, all PEM and name decoders, all messages", "why_tests_cant": "All texts, including malformed, switched and mismatched ones", "anchors": ["tls/gm_support.go:GMX509KeyPairs,GMX509KeyPairsSingle,LoadGMX509KeyPairs,LoadGMX509KeyPair,getCert,getKey,matchKeyCert", "tls/tls.go:LoadX509KeyPair"]}
{"id": "C145", "title": "Exported keying material is the handshake's RFC 5705 value", "statement": "On a connection that cannot renegotiate, ConnectionState().ExportKeyingMaterial returns, for every unreserved label, context and length, the RFC 5705 value of that connection's master secret and randoms (with SHA-384, SHA-256, SM3 or MD5/SHA-1 as version and suite prescribe), the same at both ends; reserved labels and connections that may renegotiate get an error; it never panics; TLSUnique is the first Finished of a full handshake and empty after resumption.", "quantifier": "all completed handshakes of any configuration, all labels, contexts and lengths", "why_tests_cant": "All runs, labels and contexts", "anchors": ["tls/conn.go:ConnectionState", "tls/common.go:ExportKeyingMaterial", "tls/prf.go:ekmFromMasterSecret,noExportedKeyingMaterial"]}
