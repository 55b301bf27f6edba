{"id": "C01", "title": "Split then Combine returns the secret", "statement": "For a non-empty secret and 2 <= threshold <= parts <= 255, shamir.Split returns shares without error or panic, and shamir.Combine applied to any threshold-or-more distinct returned shares, in any order, returns exactly the original secret and no error.", "quantifier": "every secret (any length), parts, threshold, every outcome of math/rand, every stale content of the pooled buffers, every CPU feature set/architecture, every choice and order of at least threshold shares", "why_tests_cant": "There are 256^(t*N)*255! random outcomes and exponentially many share subsets; tests take shares[:2] of a few secrets on one CPU.", "anchors": ["shamir/shamir.go:Split", "shamir/shamir.go:Combine", "shamir/polynomial.go"]}
{"id": "C02", "title": "Shape of Split's shares", "statement": "A successful Split returns exactly `parts` shares, each len(secret)+1 bytes; the last bytes (tags) are pairwise distinct and never 0; the first N bytes of the share tagged x are the values at x of N polynomials of degree < threshold over GF(2^8) whose constant terms are the secret bytes.", "quantifier": "every secret, parts, threshold, random outcome, architecture, pool content", "why_tests_cant": "Distinctness and non-zero tags have to hold for every permutation drawn.", "anchors": ["shamir/shamir.go:Split", "shamir/polynomial.go:evaluatePolynomialsAtWithCoefficientsBuffer"]}
{"id": "C03", "title": "Split's argument contract is exact", "statement": "Each of Split, SplitGeneric, SplitP, SplitWithRandomizer and SplitWithRandomizerOld returns an error exactly when parts < threshold, parts > 255, threshold < 2, threshold > 255 or the secret is empty (reporting the first of these that holds), and never returns an error on valid arguments.", "quantifier": "all secrets and all (also negative or huge) integers parts and threshold", "why_tests_cant": "The integer arguments range over an unbounded domain including negatives.", "anchors": ["shamir/shamir.go:Split", "shamir/shamir.go:SplitGeneric", "shamir/shamir.go:SplitP", "shamir/shamir.go:SplitWithRandomizer", "shamir/shamir.go:SplitWithRandomizerOld"]}
{"id": "C04", "title": "Fewer than threshold shares reveal nothing (Split)", "statement": "For any two secrets of the same length, any choice of fewer than `threshold` shares and any observed contents of those shares, the number of random coefficient buffers that make Split produce these contents is the same for both secrets (perfect secrecy when the coefficient bytes are uniform).", "quantifier": "every pair of equal-length secrets, parts, threshold, tag permutation, coalition of fewer than threshold shares, observed view", "why_tests_cant": "A statement about the full distribution of outputs; no finite set of runs can establish equality of counts over 256^(t*N) coefficient buffers.", "anchors": ["shamir/shamir.go:Split", "shamir/polynomial.go:makePolynomialsWithBuff"]}
{"id": "C05", "title": "Combine's contract and totality", "statement": "Combine never panics. It returns an error exactly when fewer than two parts are given, the first part is shorter than 2 bytes, some part has a different length than the first, or two parts carry the same last byte (reporting the first of these that applies); otherwise it returns len(part)-1 bytes.", "quantifier": "every list of byte strings whatsoever", "why_tests_cant": "Absence of panics (division by zero, index out of range) must hold for arbitrary attacker-chosen inputs.", "anchors": ["shamir/shamir.go:Combine", "shamir/polynomial.go:div", "shamir/polynomial.go:interpolatePolynomial"]}
{"id": "C06", "title": "Combine does not depend on the order of the parts", "statement": "Reordering the list of parts never changes the bytes Combine returns, for any list of parts (also parts that do not come from Split); it changes at most which error is reported.", "quantifier": "every list of parts and every permutation of it", "why_tests_cant": "k! orders of arbitrary inputs.", "anchors": ["shamir/shamir.go:Combine", "shamir/polynomial.go:interpolatePolynomial"]}
{"id": "C07", "title": "Combine is interpolation at 0", "statement": "On accepted parts with k shares, byte i of Combine's result is f_i(0), where f_i is the unique polynomial of degree < k over GF(2^8) through the k points (tag, byte i).", "quantifier": "every accepted list of parts", "why_tests_cant": "Existence and uniqueness over all point sets.", "anchors": ["shamir/shamir.go:Combine", "shamir/polynomial.go:interpolatePolynomial"]}
{"id": "C08", "title": "Corruption is never masked", "statement": "If one data byte of exactly one of the parts is changed (no part being tagged 0), Combine's result changes at exactly that byte position and nowhere else. More generally, if one part is replaced by any part of the same length and tag, the result changes at exactly the positions where the two parts differ. If a part is tagged 0, Combine returns that part's own data, whatever the others hold.", "quantifier": "every accepted list of parts (with non-zero tags, but for the last sentence), every position and every replacement byte or part", "why_tests_cant": "All corruptions of all share sets.", "anchors": ["shamir/shamir.go:Combine"]}
{"id": "C09", "title": "Combine is linear", "statement": "For two share lists with the same tags in the same order, Combine of the byte-wise XOR of the data bytes (tags kept) is the XOR of the two Combine results.", "quantifier": "every two accepted lists with equal tags", "why_tests_cant": "Algebraic law over all inputs.", "anchors": ["shamir/shamir.go:Combine"]}
{"id": "C10", "title": "Combining too few shares gives no information and no error", "statement": "Combine on 2 <= k < threshold distinct shares of a Split returns no error and a value whose distribution over the coefficient randomness is the same for every secret of that length.", "quantifier": "every pair of secrets, coalition, parts, threshold, claimed result", "why_tests_cant": "A statement about the output distribution.", "anchors": ["shamir/shamir.go:Combine", "shamir/shamir.go:Split"]}
{"id": "C11", "title": "SplitGeneric agrees with Split", "statement": "SplitGeneric followed by Combine on any >= threshold distinct shares returns the secret; SplitGeneric and Split return identical shares whenever they draw the same tag permutation and the same non-constant coefficients, on every architecture; fewer than threshold SplitGeneric shares are equidistributed for all secrets.", "quantifier": "every secret, parameters, randomness, architecture", "why_tests_cant": "All inputs and random outcomes on all CPU feature sets.", "anchors": ["shamir/shamir.go:SplitGeneric", "shamir/polynomial.go:makePolynomials", "shamir/polynomial.go:transpose", "shamir/polynomial.go:genericEvaluatePolynomialsAt"]}
{"id": "C12", "title": "SplitP is schedule independent", "statement": "For a secret of at most 2^32-1024 bytes, however the goroutines of SplitP are interleaved, once all are done every byte of every share has been written, the shares form a valid sharing of the secret (any threshold of them Combine to it), and every byte position used its own fresh chunk of random bytes (no chunk is used twice). No schedule deadlocks.", "quantifier": "every secret up to 2^32-1024 bytes, parameters, random stream and every interleaving of the goroutines", "why_tests_cant": "The number of interleavings is astronomically large.", "anchors": ["shamir/shamir.go:SplitP", "shamir/polynomial.go:makePolynomial", "shamir/polynomial.go:evaluate"]}
{"id": "C13", "title": "SplitP's 32-bit length arithmetic", "statement": "SplitP panics (slice bounds) when len(secret) mod 2^32 exceeds 2^32-1024, and silently drops every secret byte at position >= len(secret) mod 2^32 when len(secret) >= 2^32 (all shares hold 0 there, and Combine returns 0 there): the documented 'arbitrarily long secret' does not extend to SplitP.", "quantifier": "every secret of such a length, all parameters and schedules", "why_tests_cant": "Tests cannot allocate and split all multi-GiB secrets.", "anchors": ["shamir/shamir.go:SplitP"]}
{"id": "C14", "title": "Regenerate stays on the original polynomials", "statement": "If Regenerate returns, it returns numNewShares shares of the same length as the parts, each lying on the polynomials through the given parts; hence, given >= threshold shares of a sharing, any >= threshold shares with distinct tags taken from old and new shares Combine to the original secret, and a new share whose tag equals an old share's tag equals that old share.", "quantifier": "every sharing, every >= threshold subset used for regeneration, every numNewShares, every random outcome, every mix of old and new shares", "why_tests_cant": "All subsets, mixes and random outcomes.", "anchors": ["shamir/shamir.go:Regenerate"]}
{"id": "C15", "title": "Regenerate does not guarantee fresh tags", "statement": "The tags of the regenerated shares are exactly the raw bytes drawn by rand.Read: the duplicate-elimination loop has no effect on them. There are runs in which a new tag equals an old one, in which two new tags coincide, and in which a new tag is 0, in which case that share's data bytes are the plaintext secret.", "quantifier": "every accepted input and random outcome (characterisation); existence of the three bad runs", "why_tests_cant": "The bad runs have small probability per call, and a random test misses them.", "anchors": ["shamir/shamir.go:Regenerate"]}
{"id": "C16", "title": "Regenerate never returns when more than 256 tags would be needed", "statement": "If the parts are accepted and len(parts)+numNewShares > 256 then Regenerate loops forever, whatever the random source returns (unless the slices for so many new shares cannot be allocated, in which case it panics, see C88); a negative numNewShares panics on accepted parts.", "quantifier": "every accepted list of parts, numNewShares and random source", "why_tests_cant": "Non-termination cannot be observed by a test.", "anchors": ["shamir/shamir.go:Regenerate"]}
{"id": "C17", "title": "Regenerate's argument contract", "statement": "Regenerate returns the same errors as Combine in the same situations, and if numNewShares >= 0 and that many slices can be allocated (C88) it never panics.", "quantifier": "every list of byte strings, every integer numNewShares, every random source", "why_tests_cant": "Arbitrary inputs.", "anchors": ["shamir/shamir.go:Regenerate"]}
{"id": "C18", "title": "SplitWithRandomizer then Combine returns the secret", "statement": "Whenever SplitWithRandomizer or SplitWithRandomizerOld returns shares, any >= threshold distinct ones of them Combine to the secret, whatever the keystream and whatever stale bytes the pooled buffers hold; the tags are pairwise distinct.", "quantifier": "every secret, parameters, keystream, stale pool contents, share selection, architecture", "why_tests_cant": "The stale buffer contents and keystreams are unbounded.", "anchors": ["shamir/shamir.go:SplitWithRandomizer", "shamir/shamir.go:SplitWithRandomizerOld", "csprng/csprng.go"]}
{"id": "C19", "title": "When SplitWithRandomizer fails to return", "statement": "On valid arguments, SplitWithRandomizer with parts >= 20 (and SplitWithRandomizerOld always) panics exactly when the first keystream byte is 254 and otherwise returns; with parts < 20 it never panics, it returns if the first `parts` keystream bytes are distinct, and there are keystreams on which it loops forever (e.g. three equal leading bytes); termination is characterised exactly.", "quantifier": "every keystream and all valid arguments", "why_tests_cant": "Depends on a 1/256 event per key and on rare keystream collisions.", "anchors": ["csprng/csprng.go:Perm", "csprng/csprng.go:GetUniqueBytes", "shamir/shamir.go:SplitWithRandomizer"]}
{"id": "C20", "title": "Zero tags of SplitWithRandomizer expose the secret", "statement": "With parts < 20 a share of SplitWithRandomizer has tag 0 exactly when GetUniqueBytes produced the byte 255 at that index, and then the share's data bytes are the plaintext secret; with parts >= 20 (and for SplitWithRandomizerOld) no tag is 0.", "quantifier": "every keystream, secret, parameters, pool contents", "why_tests_cant": "A 1/256-probability event per share.", "anchors": ["shamir/shamir.go:SplitWithRandomizer", "csprng/csprng.go:GetUniqueBytes"]}
{"id": "C21", "title": "SplitWithRandomizer: threshold-1 shares reveal secret bytes", "statement": "For 2 <= threshold <= parts < 20, a fresh buffer pool and any keystream whose first `parts` bytes are distinct, threshold-1 of the shares alone (shares 1..threshold-1 for byte 0, shares t*p+1..t*p+t-1 for byte p when they exist) determine a secret byte by an explicit formula, because the tags publish the keystream bytes that are also used as coefficients; so the secrecy of C04 fails for SplitWithRandomizer.", "quantifier": "every secret, every such keystream and parameters", "why_tests_cant": "Secrecy is a property of all runs; functional tests cannot see it.", "anchors": ["shamir/shamir.go:SplitWithRandomizer", "csprng/csprng.go:Read", "shamir/polynomial.go:makePolynomialsWithBuffAndRandomizer"]}
{"id": "C22", "title": "A randomizer repeats its output", "statement": "CSPRNG.Read always starts at the beginning of the same keystream and XORs it into the buffer: two Reads into zeroed buffers of equal length give the same bytes, reading twice into one buffer restores it. Consequently two secrets split with the same randomizer by SplitWithRandomizerOld (or by SplitWithRandomizer on fresh buffers) have shares whose XOR is the XOR of the secrets: one share of each reveals it.", "quantifier": "every keystream, buffer, pair of secrets, share index, parameters", "why_tests_cant": "All pairs of secrets and keystreams.", "anchors": ["csprng/csprng.go:Read", "shamir/shamir.go:SplitWithRandomizerOld", "shamir/shamir.go:SplitWithRandomizer"]}
{"id": "C23", "title": "CSPRNG.Perm", "statement": "CSPRNG.Perm(n) panics exactly when n <= 1 or (n >= 3 and the first keystream byte is congruent to n-1 modulo n); otherwise it returns a permutation of 0..n-1. For n >= 3 the first element is never 0, so not every permutation is reachable.", "quantifier": "every byte n and every keystream", "why_tests_cant": "All keystreams.", "anchors": ["csprng/csprng.go:Perm"]}
{"id": "C24", "title": "CSPRNG.GetUniqueBytes", "statement": "If GetUniqueBytes(n) returns, it returns n pairwise distinct bytes; for n < 20 these are the first n keystream bytes whenever they are distinct, and it loops forever exactly when at some index both candidates b and b XOR k0 have already been taken.", "quantifier": "every n and keystream", "why_tests_cant": "All keystreams, including rare collisions.", "anchors": ["csprng/csprng.go:GetUniqueBytes"]}
{"id": "C25", "title": "randomizer.Randomizer.Perm is not a permutation", "statement": "For every n >= 2 and every stream, Randomizer.Perm(n) returns n bytes below n whose first two elements are both 0, hence never a permutation; Perm(1) = [0]; Perm(0) panics.", "quantifier": "every n and stream state", "why_tests_cant": "Universal negative statement over all streams.", "anchors": ["randomizer/randomizer.go:Perm"]}
{"id": "C26", "title": "randomizer.Randomizer.Read continues the stream", "statement": "Reading len(a)+len(b) bytes into a++b gives the same bytes and final stream position as reading into a and then into b; reads XOR into the existing contents.", "quantifier": "every stream, position and pair of buffers", "why_tests_cant": "All buffer splits.", "anchors": ["randomizer/randomizer.go:Read"]}
{"id": "C27", "title": "GalMultiply/GalAdd are GF(2^8) arithmetic", "statement": "GalAdd is XOR and GalMultiply is multiplication of polynomials over GF(2) modulo x^8+x^4+x^3+x^2+1; with them the bytes form a field.", "quantifier": "all bytes (pairs and triples)", "why_tests_cant": "16.7 million triples for associativity and distributivity; needs the algebraic argument.", "anchors": ["galois/galois.go", "galois/tables.go"]}
{"id": "C28", "title": "Table based variants agree", "statement": "GalMultiplyLogExp, the shamir package's mult, and GalMultiply agree on all bytes without going out of table range; GalDivide and div satisfy div(a,b)*b = a for b != 0; div panics exactly on b = 0, GalDivide exactly on b = 0 and a != 0 (GalDivide(0,0) = 0); shamir.mulTable, invTable, mulTableLow and mulTableHigh hold the products and inverses they claim.", "quantifier": "all byte pairs", "why_tests_cant": "65536-entry tables in two packages must agree entry by entry with the field.", "anchors": ["galois/galois.go:GalMultiplyLogExp", "galois/galois.go:GalDivide", "shamir/polynomial.go:mult", "shamir/polynomial.go:div", "shamir/tables.go", "galois/tables.go"]}
{"id": "C29", "title": "GalExp", "statement": "For n >= 0 with log(a)*n < 2^63, GalExp(a,n) is a multiplied n times by itself (1 for n = 0); for n < 0 with log(a)*n >= -2^63 it panics unless a is 0 or 1; when log(a)*n overflows int64 the result can be wrong or a panic.", "quantifier": "all bytes a and all 64-bit integers n", "why_tests_cant": "Unbounded exponent.", "anchors": ["galois/galois.go:GalExp"]}
{"id": "C30", "title": "Vector operations are elementwise on every architecture", "statement": "For equal-length vectors AddVector is elementwise GalAdd and MulConstVector is elementwise GalMultiply, for every length, on the portable build, on amd64 with every combination of SSE2/SSSE3/AVX2 (including the SIMD instruction sequences) and on arm64; no out-of-bounds access.", "quantifier": "every vector length and content, constant, CPU feature set", "why_tests_cant": "All lengths around every block boundary times all CPU feature sets.", "anchors": ["galois/vector.go", "galois/vector_noasm.go", "galois/vector_amd64.go", "galois/vector_amd64.s", "galois/vector_arm64.go", "galois/vector_arm64.s"]}
{"id": "C31", "title": "AddVector on unequal lengths", "statement": "The portable AddVector panics when the lengths differ; the amd64 and arm64 versions do not check: a shorter second vector makes the SIMD loop write past its end (memory corruption), and a shorter first vector silently combines only a prefix.", "quantifier": "all unequal lengths (characterised per build)", "why_tests_cant": "Out-of-bounds writes need not be visible in a test.", "anchors": ["galois/vector_noasm.go:AddVectorGeneric", "galois/vector_amd64.go:AddVector", "galois/vector_arm64.go:AddVector"]}
{"id": "C32", "title": "krawczyk Split then Combine returns the secret", "statement": "For 1 <= len(secret) <= 2^32-1 and 2 <= threshold <= parts <= 255 (threshold = parts only if the installed Reed-Solomon release accepts zero parity shards), krawczyk.Split returns shares and krawczyk.Combine with the same parts and threshold, given any >= threshold distinct shares in any order and any number of nil placeholders among them, returns the secret.", "quantifier": "every secret, parameters, random outcome, share selection, nil placement; every block cipher", "why_tests_cant": "Exponentially many selections times all secrets and keys.", "anchors": ["krawczyk/krawczyk.go:Split", "krawczyk/krawczyk.go:Combine", "krawczyk/aes.go"]}
{"id": "C33", "title": "Shape of krawczyk shares", "statement": "krawczyk.Split returns `parts` shares of exactly ceil(len(secret)/threshold)+22 bytes: a 21-byte shamir share of key||length (little endian), a Reed-Solomon shard of the ciphertext, and the share's index as last byte.", "quantifier": "every secret, parameters, randomness", "why_tests_cant": "All lengths and thresholds.", "anchors": ["krawczyk/krawczyk.go:Split"]}
{"id": "C34", "title": "krawczyk.Split's argument contract", "statement": "krawczyk.Split fails with an error (never a panic) exactly when the secret is empty or longer than 2^32-1 bytes, or not 2 <= threshold <= parts <= 255 (in particular threshold 1 and negative values are rejected), or threshold = parts and the installed Reed-Solomon release rejects zero parity shards; which error is reported is fixed by the order of the checks.", "quantifier": "all secrets and all integers parts and threshold", "why_tests_cant": "Unbounded integer arguments.", "anchors": ["krawczyk/krawczyk.go:Split"]}
{"id": "C35", "title": "krawczyk.Combine rejects too few shares", "statement": "krawczyk.Combine given fewer than `threshold` distinct shares of a krawczyk.Split (plus nils), at least one list entry, never returns data: it always returns an error.", "quantifier": "every sharing and every subset of fewer than threshold shares", "why_tests_cant": "All subsets and random outcomes.", "anchors": ["krawczyk/krawczyk.go:Combine"]}
{"id": "C36", "title": "When krawczyk.Combine panics", "statement": "krawczyk.Combine panics exactly when: the share list is empty; or parts is negative with threshold <= parts (the parameter checks pass); or, scanning the non-nil shares in order, the first share that is not acceptable (shorter than 22 bytes, or last byte >= parts) has a capacity below 21 bytes, or is empty, or has last byte <= parts. Otherwise (first offending share has capacity >= 21 and last byte > parts, or all shares are acceptable) it returns a value or an error.", "quantifier": "every list of byte strings/nils and all integers parts, threshold", "why_tests_cant": "Arbitrary malformed inputs.", "anchors": ["krawczyk/krawczyk.go:Combine"]}
{"id": "C37", "title": "krawczyk key secrecy", "statement": "Any fewer than `threshold` shares of krawczyk.Split have metadata parts whose distribution does not depend on the AES key, the secret or the length field; taking whole shares, two (key, secret) pairs that give the coalition the same ciphertext pieces produce every view equally often.", "quantifier": "every pair of key/length blocks, coalition, view", "why_tests_cant": "Distribution statement.", "anchors": ["krawczyk/krawczyk.go:Split", "shamir/shamir.go:Split"]}
{"id": "C38", "title": "krawczyk.SplitWithRandomizer publishes its key", "statement": "With 2 <= threshold <= parts < 20 and distinct leading keystream bytes, byte i of the AES key equals (shamir tag of share i) - 1 for every i < min(parts,16): every share reveals one key byte, and 16 shares reveal the key even if threshold > 16, so that they decrypt their own pieces of the secret.", "quantifier": "every secret, keystream, parameters", "why_tests_cant": "A confidentiality failure visible only by relating outputs algebraically.", "anchors": ["krawczyk/krawczyk.go:SplitWithRandomizer", "csprng/csprng.go"]}
{"id": "C39", "title": "krawczyk.SplitWithRandomizer reuses the key stream", "statement": "Two secrets of equal length split with the same randomizer are encrypted with the same key and IV: the XOR of the data parts of shares with the same index i < threshold is the XOR of the corresponding pieces of the secrets.", "quantifier": "every pair of secrets, keystream, parameters, index", "why_tests_cant": "All pairs of secrets.", "anchors": ["krawczyk/krawczyk.go:SplitWithRandomizer", "krawczyk/aes.go", "csprng/csprng.go:Read"]}
{"id": "C40", "title": "krawczyk.SplitWithRandomizer then Combine", "statement": "Whenever krawczyk.SplitWithRandomizer returns shares, they have the layout of C33 with the first 16 key stream bytes as key, and any >= threshold distinct of them (with nils) krawczyk.Combine to the secret; it returns an error exactly on the arguments on which krawczyk.Split does, and the same one.", "quantifier": "every secret, parameters, keystream, pool contents, selection", "why_tests_cant": "All keystreams and selections.", "anchors": ["krawczyk/krawczyk.go:SplitWithRandomizer", "krawczyk/krawczyk.go:Combine"]}
{"id": "C41", "title": "encrypt and decrypt", "statement": "decrypt(encrypt(m,k),k) = m for keys of 16, 24 or 32 bytes, the ciphertext has the length of m, and other key lengths give an error; the ciphertext of a prefix is the prefix of the ciphertext.", "quantifier": "every message, key and block cipher", "why_tests_cant": "All lengths and messages.", "anchors": ["krawczyk/aes.go"]}
{"id": "C42", "title": "Worker dispatch and round trip", "statement": "Worker.Split and Worker.Combine fail with an error exactly on an algorithm name other than \"shamir\" or \"krawczyk\" or when the selected algorithm's own contract fails; whenever Worker.Split returns shares, Worker.Combine with the same algorithm and parameters on >= threshold distinct of them returns the input.", "quantifier": "every algorithm name, input, parameters, worker keystream, selection", "why_tests_cant": "All strings and inputs.", "anchors": ["worker/worker.go"]}
{"id": "C43", "title": "Buffer pool: bounded, FIFO, exclusive", "statement": "For any interleaving of the operations of any number of goroutines, a pool never holds more buffers than its size (NumCPU*1024 when made with size <= 0), Get and Put never block, Get takes the buffer that was put back first and creates a never-seen one exactly when the pool is empty, Put drops a buffer exactly when the pool is full; and if every client puts back and accesses only buffers it holds, then no buffer is ever held by two clients, both pooled and held, or pooled twice, no two goroutines ever touch the same buffer, and every client computes what it computes with private buffers.", "quantifier": "every history of operations by any number of clients", "why_tests_cant": "All interleavings.", "anchors": ["utils/bufferpool.go"]}
{"id": "C44", "title": "Results do not depend on pool history", "statement": "For every history of earlier calls (any mix of Split and SplitWithRandomizer with any arguments) that leaves the pools in any reachable state, Split's shares are the same as on empty pools, and SplitWithRandomizer's shares still Combine to the secret.", "quantifier": "every history of calls", "why_tests_cant": "All histories.", "anchors": ["shamir/shamir.go:Split", "shamir/shamir.go:SplitWithRandomizer", "utils/bufferpool.go"]}
{"id": "C45", "title": "SplitWithRandomizer leaks across calls", "statement": "After SplitWithRandomizer has split secret A (threshold 2, len >= 2, fresh pool), a second SplitWithRandomizer call with the same parameters and equal length secret B uses bytes of A as coefficients: share number 1 of B together with B's first byte determines the second byte of A.", "quantifier": "every pair of secrets and keystreams", "why_tests_cant": "A cross-call information flow; functional tests cannot see it.", "anchors": ["shamir/shamir.go:SplitWithRandomizer", "utils/bufferpool.go", "csprng/csprng.go:Read"]}
{"id": "C46", "title": "Shares returned by Split share memory", "statement": "The shares returned by Split, SplitWithRandomizer and SplitWithRandomizerOld are adjacent windows of one array with spare capacity: appending a byte to share i (i < parts-1) overwrites the first byte of share i+1. Appending to a share returned by SplitGeneric, SplitP or krawczyk.Split never changes another share.", "quantifier": "every share index, secret, parameters, appended byte", "why_tests_cant": "Aliasing for every index.", "anchors": ["shamir/shamir.go:Split", "shamir/shamir.go:SplitGeneric", "krawczyk/krawczyk.go:newByteMatrix"]}
{"id": "C47", "title": "NewCSPRNGWithKeyIV keeps a reference to the caller's IV", "statement": "NewCSPRNGWithKeyIV panics on fewer than 16 bytes; with 32 bytes its Read is AES-CTR with the first 16 bytes as key and the last 16 as initial counter, where the IV is read from the caller's slice at each Read: overwriting that slice later changes the output of the generator, while overwriting the key half does not. Byte k of block i of the stream is byte k of the block cipher applied to the big-endian counter IV+i modulo 2^128; NewCSPRNG and NewWorker are this with the first and second 16 bytes that math/rand delivers.", "quantifier": "every key/IV and later mutation", "why_tests_cant": "All mutations.", "anchors": ["csprng/csprng.go:NewCSPRNGWithKeyIV"]}
{"id": "C48", "title": "Matrix helpers", "statement": "transposeMatrixBuffer and transpose really transpose: element (i,j) of the result is element (j,i) of the source for every matrix size, with no out-of-range access, and transposing twice is the identity.", "quantifier": "every rectangular matrix", "why_tests_cant": "All dimensions.", "anchors": ["shamir/polynomial.go:transposeMatrixBuffer", "shamir/polynomial.go:transpose"]}
{"id": "C49", "title": "All split variants produce the same share format", "statement": "Whenever any of the five split functions returns shares (SplitP: for secrets shorter than 2^32 bytes), there are byte polynomials with `threshold` coefficients each, whose constant terms spell the secret, and pairwise distinct tags, such that share i is the list of values at tag i followed by tag i; so shares produced by any variant on any architecture are interchangeable inputs for Combine and Regenerate.", "quantifier": "every variant, architecture, secret, parameters, randomness", "why_tests_cant": "All variants and inputs.", "anchors": ["shamir/shamir.go"]}
{"id": "C50", "title": "Concurrent calls do not disturb each other", "statement": "Any number of goroutines, each making any sequence of Split and SplitWithRandomizer calls that share the package's buffer pools, under any interleaving of their pool operations and byte accesses: nothing deadlocks, no two goroutines touch the same buffer, every execution ends, and each Split returns exactly what it returns when made alone on fresh buffers (so its shares combine to its own secret and its errors are the documented ones); each SplitWithRandomizer succeeds or fails as it does alone, with the same tags, and its shares combine to its own secret.", "quantifier": "every number of goroutines, call sequences, arguments, randomness, and interleavings", "why_tests_cant": "All schedules.", "anchors": ["shamir/shamir.go:Split", "shamir/shamir.go:SplitWithRandomizer", "shamir/polynomial.go:evaluatePolynomialsAtWithCoefficientsBuffer", "utils/bufferpool.go"]}
{"id": "C51", "title": "Splitting with math/rand always terminates and is correct", "statement": "From every state the math/rand generator can be in (any seed, any amount already drawn), rand.Perm(255) ends although its rejection loop has no bound, and returns a permutation; so Split, SplitGeneric, SplitP (for secrets up to 2^32-1024 bytes, under every schedule of its workers) and krawczyk.Split with valid arguments always return shares, any threshold of which combine to the secret. A program that makes any sequence of calls to Split, SplitGeneric, krawczyk.Split and NewCSPRNG, with good or bad arguments, gets from every one of them what it would get from that call alone: the error its arguments call for, or shares that combine to its secret.", "quantifier": "every seed, every prior use of the generator, every sequence of calls, every secret and argument, every stale buffer, schedule and architecture", "why_tests_cant": "All 607-word generator states; a rejection loop that runs for ever in one state would not be met by a test.", "anchors": ["shamir/shamir.go:Split", "shamir/shamir.go:SplitGeneric", "krawczyk/krawczyk.go:Split", "csprng/csprng.go:init"]}
{"id": "C52", "title": "How predictable shares made with math/rand are", "statement": "The coefficients come from math/rand, whose output obeys a public linear recurrence. (a) Every 7-byte block that rand.Read delivers is the sum of the blocks 607 and 273 places back. (b) For SplitGeneric, threshold-1 shares and a known prefix of the secret of about 4256/(threshold-1) bytes determine the whole secret. (c) For Split with a threshold that divides neither 4250 nor 1912, threshold-1 shares and two secret bytes determine a third one at every place where a leading coefficient is the lowest byte of a generator word. (d) For Split with threshold 2, one share and three secret bytes give a fourth by an explicit formula.", "quantifier": "every generator state, secret, threshold and coalition", "why_tests_cant": "A statement about all pairs of runs that a coalition cannot tell apart.", "anchors": ["shamir/polynomial.go:makePolynomialsWithBuff", "shamir/polynomial.go:makePolynomials", "shamir/shamir.go:Split", "shamir/shamir.go:SplitGeneric"]}
{"id": "C53", "title": "How few runs the seed allows", "statement": "Seeds that agree modulo 2^31-1 give the same generator. Over all seeds, anything computed from the generator takes at most 2^31-2 values: in particular the key streams of NewCSPRNG and the results of SplitWithRandomizer with it; and after one share of Split has been seen, at most 2^31-2 secrets of any length remain possible, for any threshold. The seeding steps are exactly multiplication by 48271 modulo 2^31-1 and stay in 1..2^31-2. NewCSPRNG uses up exactly 32 bytes of the generator, Split threshold and SplitGeneric threshold-1 bytes per byte of secret, and the next call goes on with the next byte: no byte serves two calls.", "quantifier": "every seed, every deterministic prior use of the generator, every secret, threshold and observed share", "why_tests_cant": "A bound on a set of all possible runs.", "anchors": ["csprng/csprng.go:init", "csprng/csprng.go:NewCSPRNG", "shamir/shamir.go:Split"]}
{"id": "C54", "title": "The assembler routines, instruction by instruction", "statement": "Every routine of vector_amd64.s and vector_arm64.s, run from any register and flag state, with any tables, any buffer addresses (16-byte aligned or not) and any length below 2^63, in memory that is accessible only at the two tables and at the whole blocks of in and out, reaches its RET without a fault and replaces exactly the whole blocks of out: by the XOR of the table entries for the two nibbles (for the tables the Go code passes: the product with the constant), plus the old byte in the Xor variants, or by in XOR out; no other byte of memory changes. In-place use is allowed. The routines implement the slice-level functions on which AddVector and MulConstVector rest, and, as they ignore len(out), overwrite memory behind a too short out.", "quantifier": "every register state, memory, address, alignment, length, table and block contents", "why_tests_cant": "All lengths, alignments and register states; an out-of-bounds access or a missed tail shows only for particular ones.", "anchors": ["galois/vector_amd64.s", "galois/vector_arm64.s", "galois/vector_amd64.go:MulConstVector", "galois/vector_arm64.go:MulConstVector"]}
{"id": "C55", "title": "krawczyk.Combine's complete contract", "statement": "For every list of shares (nil, truncated, of any contents, slices with spare capacity) and every parts/threshold, krawczyk.Combine returns a value exactly when all checks pass, and that value is fully determined: the metadata are the values at 0 of the polynomials through the shares' metadata bytes, the ciphertext is the first `length` bytes of the first threshold pieces (missing ones completed from the first threshold pieces present, the last share winning among equal indices), decrypted with OFB. Otherwise the error is determined by the order of checks. No other outcome exists except the panics of C36. (On shares as values; C63 says what this means for shares that overlap in memory.)", "quantifier": "all share lists, all spare capacities, all integer parameters, all block ciphers, all read sizes", "why_tests_cant": "The space of malformed share lists is unbounded; an exact characterisation needs both directions for every input.", "anchors": ["krawczyk/krawczyk.go: Combine", "krawczyk/aes.go: decrypt", "shamir/shamir.go: Combine"]}
{"id": "C56", "title": "krawczyk pieces are not authenticated", "statement": "If strings are XORed into the pieces of the first threshold shares of a krawczyk split, krawczyk.Combine returns, without any error, the secret XORed with exactly these strings, whatever was done to the pieces of the remaining shares.", "quantifier": "all secrets, parameters, random choices, XORed strings, orders, extra shares, both split functions", "why_tests_cant": "States that no input combination is ever rejected and what the output is for each of them.", "anchors": ["krawczyk/krawczyk.go: Split, SplitWithRandomizer, Combine"]}
{"id": "C57", "title": "A single shamir participant can steer the recovered secret", "statement": "For any set of distinct non-zero tags and any participant there is a non-zero multiplier, depending on the tags only, by which the participant can turn any desired XOR difference of the secret into a change of its own share so that Combine returns exactly the secret with that difference, with no error.", "quantifier": "all tag lists, participants, parts with these tags, differences", "why_tests_cant": "The multiplier must work for every secret, every other share and every difference at once.", "anchors": ["shamir/shamir.go: Combine"]}
{"id": "C58", "title": "krawczyk.Combine does not need the exact parameters", "statement": "Shares of a krawczyk split combine to the secret for every parts value above the indices given (up to 255) and every threshold value from the real threshold up to the number of shares given.", "quantifier": "all secrets, split parameters, combine parameters, selections, both split functions", "why_tests_cant": "Quantifies over all pairs of split and combine parameters.", "anchors": ["krawczyk/krawczyk.go: Split, SplitWithRandomizer, Combine"]}
{"id": "C59", "title": "Correctness and secrecy survive any history of Regenerate", "statement": "After Split and any sequence of Regenerate calls, each on at least threshold of the shares issued so far (failing calls included), any threshold or more issued shares with distinct tags combine to the secret, shares with equal tags are equal, which tags are issued does not depend on the secret, and fewer than threshold issued shares, none with tag 0, reveal nothing about the secret beyond its length.", "quantifier": "all secrets, parameters, random choices, histories of Regenerate calls of any length, and coalitions of old and new shares", "why_tests_cant": "Quantifies over histories of unbounded length and over the distribution of the random coefficients.", "anchors": ["shamir/shamir.go: Split, Regenerate, Combine"]}
{"id": "C60", "title": "Regenerating from too few shares breaks the threshold", "statement": "Regenerate does not detect that it was given fewer than threshold shares. In a sharing with any threshold t >= 3, take t shares with distinct non-zero tags, three of them with tags x1, x2, x3: if Regenerate is called on all of them but the third (t-1 shares) and draws the tag x with x*(x1+x2+x3) = x1*x2, then the new share, together with all but the first two (t-1 shares), combines to the secret. For threshold 3 such a fresh non-zero tag exists whenever x3 <> x1 XOR x2: two shares suffice.", "quantifier": "all secrets, thresholds from 3, sharings, choices of threshold shares", "why_tests_cant": "Claims the existence of a breaking tag for every sharing and triple of shares.", "anchors": ["shamir/shamir.go: Regenerate, Combine"]}
{"id": "C61", "title": "The demonstration program", "statement": "main always ends normally and prints the message twice and then one line per length 64, 128, ..., 32768 for sharing and for encryption, whatever the random choices (if crypto/rand fails, the encryption lines stop there and main still ends normally); its self-check prints the recombined message correctly for every message and all valid parameters; its measurements print exactly the doubled lengths up to the limit; started with an empty message a measurement dies with Split's error or never ends.", "quantifier": "all random choices, pool contents, architectures, messages, limits and repetition counts", "why_tests_cant": "A run uses one sequence of random choices; termination and the absence of a fatal error are claimed for all of them.", "anchors": ["main.go: main, checkSecretSharing, measureSecretSharingLatency, measureEncryptionLatency"]}
{"id": "C62", "title": "Calls leave the caller's memory alone and return fresh slices", "statement": "Split, SplitWithRandomizer, SplitGeneric, Combine and Regenerate, run step by step on memory, never change a byte of any array the caller can reach (their arguments, shares returned by earlier calls, anything else outside the pools), never hand out a pool buffer or put one of the caller's arrays into a pool, and return slices of newly allocated arrays that do not overlap each other. Their results depend only on the bytes of their arguments (and, for SplitWithRandomizer, of one pool buffer). This holds after any history of allocations, stores, appends, reslicings and calls, also when shares or arguments overlap.", "quantifier": "all client programs (sequences of allocations, stores, appends, reslicings and calls of the package), all random choices, pool sizes, architectures", "why_tests_cant": "Corruption through a shared backing array or a pool buffer depends on the history of earlier calls and on how slices overlap; the claim is for every history.", "anchors": ["shamir/shamir.go: Split, SplitWithRandomizer, SplitGeneric, Combine, Regenerate", "shamir/polynomial.go: makePolynomialsWithBuff, transposeMatrixBuffer, evaluatePolynomialsAtWithCoefficientsBuffer", "utils/bufferpool.go: Get, Put"]}
{"id": "C63", "title": "What krawczyk.Combine does to the memory of its shares", "statement": "krawczyk.Combine, run on shares that are slices of memory with capacities, ends as the function of values of C55 does, returns a fresh slice, and never changes a byte the caller can reach, as long as no share is exactly 22 bytes long. A share of 22 bytes (metadata and index, no piece) counts as a missing piece, and the Reed-Solomon library reconstructs the missing piece in place: if the share's index is below the threshold and its capacity allows, a successful Combine overwrites the caller's memory from the share's index byte on, beyond the slice's length, with the reconstructed ciphertext piece; nothing else is written. If such a share's capacity runs into another share's memory the result can be wrong.", "quantifier": "all memories, all share lists (nil, overlapping, any capacity), all parameters, all block ciphers", "why_tests_cant": "The write happens only for particular lengths and capacities of the slices, and its harm depends on how the shares overlap; the claim is for every layout of the shares.", "anchors": ["krawczyk/krawczyk.go: Combine", "shamir/shamir.go: Combine"]}
{"id": "C64", "title": "The remaining split functions do not touch the caller's memory, alone or in any program", "statement": "krawczyk.Split, krawczyk.SplitWithRandomizer, shamir.SplitWithRandomizerOld and shamir.SplitP (its goroutines reading the secret and writing the shares under any schedule), run on memory, never change a byte the caller can reach, return fresh slices that do not overlap each other or anything the package keeps, and end exactly as the functions of values do for the bytes of the secret (for krawczyk.SplitWithRandomizer these depend on the left-over contents of one pool buffer). Consequently a program that uses both packages in any order, storing, appending and reslicing in between, sees every call behave like a function of the bytes it passes, and no call changes a slice the program holds (shares of exactly 22 bytes given to krawczyk.Combine excepted, see C63).", "quantifier": "all memories with the pools in any state, all secrets (any slice, also of other slices), all parameters, randomness and block ciphers; all finite programs over the API of both packages; all schedules of the goroutines of SplitP", "why_tests_cant": "It is a claim about every state the pools and the heap can be in after any history of calls and stores.", "anchors": ["krawczyk/krawczyk.go: Split, SplitWithRandomizer, Combine, newByteMatrix", "shamir/shamir.go: SplitWithRandomizerOld", "shamir/polynomial.go: makePolynomialsWithRandomizer, transpose, newMatrix, evaluatePolynomialsAt", "utils/bufferpool.go: BytesBufferPool", "shamir/shamir.go: SplitP"]}
{"id": "C65", "title": "Split leaves the secret in the clear in the package's buffer pool until the next split", "statement": "When Split or SplitWithRandomizer has returned successfully, the package-level buffer pool holds one buffer whose backing array begins with the complete secret, byte after byte, and another with byte p of the secret at position threshold*p. Nothing the program does afterwards other than calling Split or SplitWithRandomizer of either package again removes it: overwriting its own copy of the secret, dropping or overwriting the shares, appending, Combine, Regenerate, SplitGeneric, SplitWithRandomizerOld and krawczyk.Combine all leave both buffers in the pool with the same bytes. (A user who wants the secret gone from memory cannot get that from the API; the exact statement of what remains is the property.)", "quantifier": "all memories with the pool in any state within its capacity (at least 2; the package's is NumCPU*1024), all secrets, parameters, permutations, randomness and builds; all programs before and, without split calls, after", "why_tests_cant": "A test sees one memory after one call; that nothing short of another split erases the secret is a claim about every later program.", "anchors": ["shamir/shamir.go: Split, SplitWithRandomizer, bPool", "utils/bufferpool.go: Get, Put", "shamir/polynomial.go: makePolynomialsWithBuff, transposeMatrixBuffer"]}
{"id": "C66", "title": "What the access pattern of Split and Combine shows", "statement": "Take as side channel which entries of the package's lookup tables are read, which way branches on data bytes go, and which instructions and addresses the assembler routines execute and touch. (1) The assembler routines show nothing: instruction sequence and addresses depend on pointers and lengths only. (2) A successful Combine takes the same branches whatever the shares are, as the comments at mult and div promise. (3) Split's pattern does not depend on the secret at all, and depends on the random bytes only for the last bytes of the secret, as many as the build handles one by one (none for suitable lengths, all of them without assembler or, with SSSE3 only, when the length is a multiple of 16). (4) But Split's pattern together with a single share (whose tag is not 1, or any share without assembler) determines these last bytes of the secret, and Combine's pattern determines all shares it was given, and so the secret.", "quantifier": "all inputs, tags, random streams, stale buffers and builds (generic, amd64 with any CPU features, arm64); all instruction sequences of the modelled instruction set, any number of steps", "why_tests_cant": "Independence of the trace from the data (and determination of the data by the trace) relate all pairs of runs; timing tests only sample.", "anchors": ["galois/vector_amd64.go: MulConstVector", "galois/vector_arm64.go: MulConstVector", "galois/vector_noasm.go: MulConstVectorGeneric", "galois/vector_amd64.s: galMulSSSE3, galMulAVX2", "galois/vector_arm64.s: galMulNEON", "shamir/polynomial.go: mult, div, interpolatePolynomial, evaluatePolynomialsAtWithCoefficientsBuffer", "shamir/shamir.go: Split, Combine"]}
{"id": "C67", "title": "Secrecy of any sequence of splits against an adaptive attacker", "statement": "Suppose all calls of Split, SplitGeneric and SplitP of a program take their random bytes, one call after the other, from one ideal source (with the permutations public). An attacker that chooses, depending on all shares it has seen so far, the function, the parameters, a pair of equally long secrets and the shares to be shown (fewer than the threshold of that call, or any if the two secrets are the same) learns nothing about which secret of each pair is split: every conclusion it can draw is reached for exactly as many of the random strings when always the first as when always the second secret is split. This holds whatever earlier calls left in the buffer pools.", "quantifier": "all attackers (functions from the shares seen to the next request), numbers of calls, builds, pool contents (even depending on the random bytes and the secrets) and complete or incomplete schedules of SplitP", "why_tests_cant": "Equality of distributions over all random strings and all adaptive strategies; tests see single runs.", "anchors": ["shamir/shamir.go: Split, SplitGeneric, SplitP"]}
{"id": "C68", "title": "No silent integer overflow in the split functions, for any width of int", "statement": "On a machine whose int has W bits (32 or 64 in practice), with wrap-around of every sum and product, and with any limit on memory, Split, SplitWithRandomizer, SplitWithRandomizerOld and SplitGeneric return exactly what they return with unbounded integers, or panic. They do not panic for lack of room when the sizes fit. When (len(secret)+1)*parts (for SplitGeneric: threshold*len(secret)) is larger than the largest int they never return shares, although the computed size may wrap around to a small positive number that can be allocated (254 bytes for 16843009 secret bytes and 255 parts on 32 bits).", "quantifier": "all widths from 16 bits, memory limits, secrets representable as a slice, parts, thresholds, random streams, key streams, pool contents, buffer growth policies and builds", "why_tests_cant": "Overflow appears only for secrets of at least 2^31/255 bytes on 32 bits (2^63/255 on 64 bits); tests neither run there nor cover every length.", "anchors": ["shamir/shamir.go: Split, SplitWithRandomizer, SplitWithRandomizerOld, SplitGeneric", "shamir/polynomial.go: makePolynomialsWithBuff, transposeMatrixBuffer, evaluatePolynomialsAtWithCoefficientsBuffer, newMatrix"]}
{"id": "C69", "title": "Krawczyk shares below the threshold reveal no more than the ciphertext", "statement": "There is a simulator that, knowing only the public parameters, the ciphertext of the secret and random bytes (neither key nor secret), produces what the holders of fewer than threshold shares returned by krawczyk.Split see: every conclusion they can draw holds for equally many random strings. Hence any attack on the shares, with a key drawn at random, is matched by an attack on the OFB ciphertext alone that succeeds exactly as often, for every secret.", "quantifier": "all block ciphers, keys, secrets, parts, thresholds, coalitions below the threshold, attackers, pool contents and builds", "why_tests_cant": "Secrecy is a statement about the distribution of views over all random strings and all attackers; no run exhibits it.", "anchors": ["krawczyk/krawczyk.go: Split, encrypt", "shamir/shamir.go: Split"]}
{"id": "C70", "title": "Concurrent use of the whole API", "statement": "Any number of goroutines may call shamir.Split, SplitWithRandomizer, SplitWithRandomizerOld, SplitGeneric, Combine, Regenerate and krawczyk.Split, SplitWithRandomizer, Combine at the same time, each choosing its next call from what its earlier calls returned. Whatever the interleaving, every call that ends has returned what it returns when it is made alone (for the two SplitWithRandomizer, whose shares depend on the contents of the pool buffers: shares with the same tags that combine to the secret); a goroutine stops early only at a call that panics or hangs also when it is made alone. There is no deadlock, no infinite execution of finitely many calls, and no data race in the pool buffers.", "quantifier": "all numbers of goroutines, call sequences (adaptive), arguments, random draws, pool sizes, builds and interleavings of pool operations and byte accesses", "why_tests_cant": "The interleavings of even two calls are too many to enumerate, and a race shows only under some schedules.", "anchors": ["utils/bufferpool.go: Get, Put", "shamir/shamir.go: Split, SplitWithRandomizer, SplitWithRandomizerOld, SplitGeneric, Combine, Regenerate", "shamir/polynomial.go: evaluatePolynomialsAt, evaluatePolynomialsAtWithCoefficientsBuffer", "krawczyk/krawczyk.go: Split, SplitWithRandomizer, Combine"]}
{"id": "C71", "title": "Concurrent calls share the random source safely", "statement": "All calls of the process draw from the one global source of math/rand. Any number of goroutines may call shamir.Split, SplitGeneric, SplitP, Regenerate, krawczyk.Split and csprng.NewCSPRNG at the same time, while other code draws from the source or seeds it anew: each call that ends has an outcome it can have alone, for some permutation and some bytes (so valid splits return shares that combine to the secret). On a source that was seeded and used in any way, every schedule of finitely many such calls (without Regenerate) comes to its end, and a goroutine that is not finished can always go on. With an ideal source of bytes, an attacker who starts calls of Split, SplitGeneric and SplitP with pairs of secrets, decides after every draw which goroutine goes on, and sees all permutations and fewer shares of each call than its threshold, learns nothing about which of the secrets were split.", "quantifier": "all numbers of goroutines, adaptive call sequences and arguments, states of the source, schedules of the draws, other programs using the source, adaptive attackers and conclusions", "why_tests_cant": "The interleavings of the draws of two calls (256 draws each) cannot be enumerated, and secrecy is a statement about all random strings and all attackers.", "anchors": ["shamir/shamir.go: Split, SplitGeneric, SplitP, Regenerate", "shamir/polynomial.go: makePolynomialsWithBuff, makePolynomials, makePolynomial", "krawczyk/krawczyk.go: Split", "csprng/csprng.go: NewCSPRNG, init"]}
{"id": "C72", "title": "When krawczyk.SplitWithRandomizer returns, and what a zero metadata tag gives away", "statement": "For valid arguments, krawczyk.SplitWithRandomizer with 20 or more parts panics exactly when the first byte of the generator's key stream is 254 and returns otherwise; with fewer than 20 parts it never panics, and loops forever exactly when at some index both candidate tag bytes were already picked. With fewer than 20 parts the metadata of a share carries the tag 0 exactly when the byte picked for it is 255; that one share then contains the AES key and the length of the secret in the clear, and its holder decrypts every piece of the ciphertext it sees (its own to begin with), far below the threshold. With 20 or more parts no tag is 0.", "quantifier": "all key streams, secrets, numbers of parts, thresholds, block ciphers, pool contents and architectures", "why_tests_cant": "Depends on rare bytes of the key stream (1 in 256 per share), so tests with a random seed almost never see it; non-termination cannot be observed by a test.", "anchors": ["krawczyk/krawczyk.go: SplitWithRandomizer", "csprng/csprng.go: GetUniqueBytes, Perm, Read"]}
{"id": "C73", "title": "What the access pattern of SplitGeneric, SplitWithRandomizer(Old), SplitP and Regenerate shows", "statement": "An observer who sees only the order of conditional branches and the table entries read (no contents) by SplitGeneric, SplitWithRandomizer, SplitWithRandomizerOld or one goroutine of SplitP sees exactly the intermediate values of evaluating the sharing polynomials at the tags. With equal randomness (and, for SplitP, an equal schedule) these observations do not depend on the secret; but together with the tags and one single share (for the randomizer variants with assembler: one whose tag is not 1) they determine the whole secret for SplitGeneric and SplitP (under any schedules), and for the randomizer variants the last bytes, as many as the build handles one by one. Regenerate takes the same branches whatever the shares are, but if it makes at least one share its table reads determine the data of all given shares, and with the tag of one new share the shares themselves.", "quantifier": "all secrets, numbers of parts, thresholds, random bytes, key streams, pool contents, architectures, schedules of SplitP, sets of shares and numbers of new shares", "why_tests_cant": "It is a statement about all pairs of runs and about what is not visible in the results at all; a test can compare a few timings but not show that nothing, or everything, is determined.", "anchors": ["shamir/shamir.go: SplitGeneric, SplitWithRandomizer, SplitWithRandomizerOld, SplitP, Regenerate", "shamir/polynomial.go: evaluatePolynomialsAt, genericEvaluatePolynomialsAt, evaluate, interpolatePolynomial"]}
{"id": "C74", "title": "Pool buffers are given back: no leak, no mixing of the pools, no growth", "statement": "However many goroutines call Split, SplitWithRandomizer, SplitWithRandomizerOld, SplitGeneric, Combine, Regenerate or the krawczyk functions, in whatever order and interleaving: no goroutine ever works with more than two buffers of the first pool and one of the second; a goroutine whose calls have all returned, with shares or with errors, has put back every buffer it took; a buffer is only ever put back into the pool it came from; the number of buffers allocated and not dropped stays below two (one) per goroutine however many calls are made, and none is dropped if the pool has room for that many; when all are done every buffer is back in its pool or was dropped because the pool was full.", "quantifier": "all builds, pool sizes, numbers of goroutines, sequences of calls (which may depend on earlier results), arguments, randomness and interleavings", "why_tests_cant": "A leak or a buffer in the wrong pool does not change any result; it shows only over whole histories of concurrent calls and on the error paths, at every point of every schedule.", "anchors": ["shamir/shamir.go: Split, SplitWithRandomizer, SplitWithRandomizerOld, bPool", "shamir/polynomial.go: evaluatePolynomialsAt, evaluatePolynomialsAtWithCoefficientsBuffer, polynomialBufferPool", "utils/bufferpool.go: Get, Put, NewBytesBufferPool"]}
{"id": "C75", "title": "Secrecy of any mixture of shamir and krawczyk splits against an adaptive attacker", "statement": "Let an attacker ask for any number of splits one after the other, with shamir's Split, SplitGeneric or SplitP or with krawczyk.Split, choosing each time the parameters, two secrets of the same length and fewer than threshold shares to see (or all, if the two secrets are the same) depending on everything it has seen. With ideal random bytes, telling whether always the first or always the second secrets are split is exactly as hard as telling which messages are encrypted, for someone who hands in the same pairs of messages and sees only OFB ciphertexts under fresh random keys. The key shares, metadata, pieces, pools and shamir splits in between add nothing.", "quantifier": "all adaptive attackers and conclusions, numbers of requests, parameters, secrets, permutations, builds, pool contents, block ciphers; every bound on what can be told from ciphertexts", "why_tests_cant": "Secrecy is a statement about the number of random strings behind every possible view, over all attackers and all sequences of calls; a reduction to the cipher cannot be observed in any run.", "anchors": ["krawczyk/krawczyk.go: Split", "krawczyk/aes.go: encrypt", "shamir/shamir.go: Split, SplitGeneric, SplitP"]}
{"id": "C76", "title": "krawczyk.Split leaves its AES key in the clear in the buffer pool of package shamir", "statement": "When krawczyk.Split or krawczyk.SplitWithRandomizer has returned shares, the buffer pool of package shamir holds, until the next split that takes the buffer, an array that starts with the 16 key bytes and the length of the secret in the clear. Nothing the program does with its own slices, and no Combine (of either package), Regenerate, SplitGeneric or SplitWithRandomizerOld, removes it. With this key each of the first threshold shares decrypts to its part of the secret on its own.", "quantifier": "all secrets, parameters, keys, random bytes, permutations, builds, memories and histories of a program before the call, and all later programs that do not split with the pool", "why_tests_cant": "The residue is not part of any result; that it stays whatever the program does afterwards is a statement about all histories.", "anchors": ["krawczyk/krawczyk.go: Split, SplitWithRandomizer", "shamir/shamir.go: Split, SplitWithRandomizer, bPool", "utils/bufferpool.go: Put"]}
{"id": "C77", "title": "The pieces are the matrix code: any threshold of them can be inverted", "statement": "The pieces that krawczyk.Split and krawczyk.SplitWithRandomizer put into the shares are the product of one fixed matrix (the Vandermonde matrix with rows 0..parts-1 times the inverse of its top square) with the first threshold pieces, which are the padded ciphertext. Every choice of threshold rows of that matrix is invertible, with a unique inverse, and multiplying the pieces of any threshold shares by the inverse of their rows gives the padded ciphertext. Encoding and reconstruction of arbitrary shards are these products too.", "quantifier": "all secrets, parameters, keys, random bytes, permutations and builds; all choices of threshold shares; all numbers of shards up to 256 and all shard contents", "why_tests_cant": "There are C(parts, threshold) row choices, up to C(255,127); invertibility of each is an algebraic fact.", "anchors": ["krawczyk/krawczyk.go: Split, SplitWithRandomizer, Combine"]}
{"id": "C78", "title": "One Randomizer never uses a key stream byte twice", "statement": "In any history of Read and Perm calls on one randomizer.Randomizer, the calls use consecutive, hence disjoint, stretches of one key stream: a Read XORs its stretch into the buffer, and a Perm depends on nothing but its stretch. NewRandomizer never fails. Seeded with the same 32 bytes as a csprng.CSPRNG, the first Read of a Randomizer gives what every Read of the CSPRNG gives, and reading in pieces gives the same bytes as reading at once. With AES, successive 16 byte reads of zeroed buffers are pairwise different, for up to 2^128 reads.", "quantifier": "all seeds, all block ciphers (AES for the last sentence), all finite histories of Read and Perm calls, all buffers and buffer sizes", "why_tests_cant": "Histories are unbounded, and the absence of a repeated block over 2^128 reads cannot be tested.", "anchors": ["randomizer/randomizer.go: NewRandomizer, Read, Perm", "csprng/csprng.go: NewCSPRNG, Read"]}
{"id": "C79", "title": "Secrecy of concurrent splits with shamir and krawczyk against an attacker who controls the interleaving", "statement": "Goroutines call Split, SplitGeneric, SplitP and krawczyk.Split at the same time and draw from one source of random bytes. An attacker chooses the calls (each with two possible secrets of the same length), decides after every draw which goroutine goes on, and sees all permutations, the sizes of all reads and fewer shares of each call than its threshold (all of them if the two secrets are equal). Whatever it concludes about which of the secrets were split, someone who only hands in the pairs of secrets given to krawczyk.Split and sees one of each pair encrypted under a fresh random key concludes exactly as often. So the advantage of the attacker is at most that of breaking the cipher, and zero if krawczyk.Split is only used with equal secrets.", "quantifier": "all block ciphers, builds, adaptive attackers and schedules of draws, requests, conclusions, numbers of actions and words drawn for the permutations", "why_tests_cant": "Secrecy compares the counts over all random strings for every adaptive attacker and every interleaving.", "anchors": ["krawczyk/krawczyk.go: Split", "shamir/shamir.go: Split, SplitGeneric, SplitP", "shamir/polynomial.go: makePolynomialsWithBuff, makePolynomials, makePolynomial"]}
{"id": "C80", "title": "The tags of SplitWithRandomizerOld, and of the randomizer splits from 20 parts on, give away coefficients and key bytes", "statement": "SplitWithRandomizerOld, and SplitWithRandomizer with 20 or more parts on a fresh pool, take their tags from CSPRNG.Perm(255), which shuffles with the same key stream bytes that are the coefficients. Where the shuffle leaves the elements t*p+1 .. t*p+t-1 undisturbed (each is exchanged with an untouched element behind it and never again), the threshold-1 shares with these numbers determine secret byte p by an explicit formula. For every secret and every threshold t up to 85 with at least 2t-1 parts there is a key stream with which t-1 shares fix the first secret byte, whatever secret and key stream they may have come from, so these splits are not threshold-secret. In krawczyk.SplitWithRandomizer with 20 or more parts the metadata tag of share 0 is 2 plus AES key byte 0 modulo 255, and key byte i is the metadata tag of share i minus 2 for every undisturbed i.", "quantifier": "every secret, parameters, key stream, build, pool contents (of the evaluation buffers; for the key also of the others)", "why_tests_cant": "A confidentiality failure is a relation between all runs; functional tests do not look for it, and the shuffle hides it on casual inspection.", "anchors": ["shamir/shamir.go: SplitWithRandomizerOld, SplitWithRandomizer", "csprng/csprng.go: Perm, GetUniqueBytes, Read", "krawczyk/krawczyk.go: SplitWithRandomizer"]}
{"id": "C81", "title": "Shares made with math/rand predict later keys", "statement": "After a SplitGeneric that draws from math/rand, threshold-1 of its shares together with a known prefix of its secret (4249 bytes divided by threshold-1, rounded up, plus the bytes left of the generator's current word) determine every byte that will be read from the generator next: hence the whole key stream of a CSPRNG made next, and the AES key of a krawczyk.Split made next, of which one data share then reveals its piece of another secret.", "quantifier": "every two runs (states of the generator, secrets, fuel) with the same parameters, the same threshold-1 shares and the same prefix; every later call, build and pool contents", "why_tests_cant": "A confidentiality failure is a relation between all runs from all 607-word generator states; a functional test does not look for it.", "anchors": ["shamir/shamir.go: SplitGeneric", "shamir/polynomial.go: makePolynomial", "csprng/csprng.go: NewCSPRNG", "krawczyk/krawczyk.go: Split"]}
{"id": "C82", "title": "Altered shares can be found and corrected by recombining, and how many shares that takes", "statement": "Combine alone does not notice altered shares, but its results for different choices of parts do. Leaving out each of at least three parts (distinct non-zero tags) in turn, at every byte position the results either all agree with each other and with the result for all parts, or are pairwise different. If one of threshold+1 or more shares with non-zero tags is altered (length and tag intact), leaving it out gives the secret, and at each position the results of leaving out different shares agree exactly if the altered share is right there. If at most e shares are altered and threshold+e or more of the received ones agree (Combine returns the same for any threshold of them), that result is the secret; with threshold+2e received shares such ones exist. With fewer than threshold+2e shares this is impossible: for every run of Split there is a run with another secret such that the same received parts differ from the shares of either run in at most e.", "quantifier": "every set of parts; every sharing (whichever split function made it, regenerated shares included), every choice and order of its shares, every alteration that keeps lengths and tags, every e; every run of Split", "why_tests_cant": "Ranges over all alterations of all shares, and the limit says that no decoding procedure whatever exists; tests can only try some.", "anchors": ["shamir/shamir.go: Combine", "shamir/shamir.go: Split", "shamir/polynomial.go: interpolatePolynomial"]}
{"id": "C83", "title": "Secrecy of splits and regenerated shares against an attacker who collects shares over time", "statement": "An attacker asks, each time depending on everything it was told before: split one of two secrets of the same length with Split, SplitGeneric or SplitP; call Regenerate on at least threshold shares of an earlier sharing, original or regenerated ones (it chooses them and the bytes the call draws, and is told the new tags or how the call ended); or show one share of an earlier sharing. A share is shown unless its tag is 0 or with it threshold different shares of its sharing would have been shown; if the two secrets are equal, everything is shown. Whatever the attacker concludes about which of the secrets were split, it concludes for exactly as many random strings when the left ones are split as when the right ones are.", "quantifier": "every attacker (any function from the replies so far to the next request), any number of requests, every pair of worlds of pool contents, every permutation, schedule and drawn tag, every conclusion", "why_tests_cant": "Counts over all random strings for all adaptive strategies; shares are collected over time, so no fixed coalition can be tested.", "anchors": ["shamir/shamir.go: Split", "shamir/shamir.go: SplitGeneric", "shamir/shamir.go: SplitP", "shamir/shamir.go: Regenerate"]}
{"id": "C84", "title": "How often the randomizer splits and Regenerate give no usable shares: exact counts", "statement": "Counted over all strings a random source can deliver: with fewer than 20 parts, SplitWithRandomizer returns for exactly R(parts) of the 256^parts possible first key stream bytes (and never returns for the others), and returns without a share of tag 0 for exactly U(parts) of them, where R and U are given by a counting recursion over taken and half-taken pairs of byte values (for example, 5.47 percent of the key streams hang it with 19 parts, and 12.5 percent give no usable shares). With 20 or more parts it panics for exactly one of 256 key streams, as does SplitWithRandomizerOld with any number of parts; all other key streams give shares without tag 0. Regenerate, asked for k shares, gives pairwise distinct new tags different from 0 and from the tags of its parts for exactly (256-d)(255-d)...(257-d-k) of the 256^k strings, d being the number of byte values that are 0 or a tag of the parts, and a share of tag 0, holding the secret, for exactly 256^k - 255^k.", "quantifier": "every valid secret, parts and threshold, pool contents, architecture; all key streams and random strings (counted exactly, for every length); every acceptable list of parts, every k, every source of replacement bytes", "why_tests_cant": "The counts range over up to 256^19 key streams and 256^k strings; sampling gives an estimate only, and a hanging call cannot be observed.", "anchors": ["shamir/shamir.go: SplitWithRandomizer", "shamir/shamir.go: SplitWithRandomizerOld", "shamir/shamir.go: Regenerate", "csprng/csprng.go: GetUniqueBytes"]}
{"id": "C85", "title": "Combining too few genuine shares with any other parts gives every result equally often", "statement": "An attacker sees the shares w of some participants of a split and, knowing w, chooses further parts (forged, or taken from other splits) with non-zero tags that differ from each other and from those of the genuine shares; these are combined with the shares of some other participants, so few that together with those seen there are fewer than threshold. Then Combine always succeeds with a result of the secret's length, and every byte string of that length - the secret, or one the attacker wants to plant - is the result for exactly the same number of the random strings with which the split shows w: one in 256^length. Holds for Split, SplitGeneric and SplitP (every schedule in which it returns). The tags must not be zero: a part with tag zero that Combine accepts decides the result alone, which is then its data.", "quantifier": "every valid secret, parts and threshold, tag permutation, pool contents, architecture, schedule; every pair of disjoint sets of participants below the threshold, every view, every list of other parts, every target string; all random strings (counted exactly)", "why_tests_cant": "A probability over all random strings, for every attacker; a test sees single runs.", "anchors": ["shamir/shamir.go: Split", "shamir/shamir.go: SplitGeneric", "shamir/shamir.go: SplitP", "shamir/shamir.go: Combine"]}
{"id": "C86", "title": "What the access pattern of krawczyk's Split, SplitWithRandomizer and Combine shows", "statement": "Record, of one call, which entries of the lookup tables of /repo are read and which branches are taken on bytes of the data (what the AES and Reed-Solomon libraries read is not recorded). The records of krawczyk.Split are those of the sharing of the AES key and the secret's length: they depend on neither the secret, nor its length, nor the AES key, and of the random bytes only on those for the last bytes of key and length, which the build treats one by one. But together with the metadata (first 21 bytes) of one single share, whose tag is not 1 or in a build without assembler, they determine these last bytes: the whole AES key and the length in every build but amd64 with SSSE3 and without AVX2, where it is only the length; and then with threshold pieces the secret. The records of SplitWithRandomizer are those of the sharing of key and length likewise. A call of Combine that returns takes the same branches whatever the shares are; two such calls with equally many shares leave the same records if and only if the metadata of the shares are the same (pieces, parameters and the cipher leave none), so the records and the pieces determine the secret.", "quantifier": "every secret, parts, threshold, AES key, random string, block cipher, build, pool contents; every pair of runs that leave the same records; for Combine every list of shares and every pair of calls that return", "why_tests_cant": "A statement about all pairs of executions; the records are not visible to a test.", "anchors": ["krawczyk/krawczyk.go: Split", "krawczyk/krawczyk.go: SplitWithRandomizer", "krawczyk/krawczyk.go: Combine"]}
{"id": "C87", "title": "Splitting shares again: any tree of splits keeps the secret from everyone who is not qualified", "statement": "A secret is handed out by a tree of calls: a call of Split, SplitGeneric or SplitP splits it, each of its shares is given to a person or split again by another call with its own parts and threshold, and so on to any depth. Call some people qualified for a call if they have, or are qualified for, at least threshold of its shares. People who are not qualified for the first call learn nothing: whatever they decide upon everything they have, they decide it for exactly as many random strings with one secret as with any other of the same length. The same holds for an attacker who wins people over one after the other, choosing the next one upon what it has got so far, as long as they do not become qualified. If every call returns (Split and SplitGeneric always do), qualified people get the secret back by calling Combine wherever they know threshold shares, from the leaves to the root; others get nothing that way.", "quantifier": "every tree of calls with valid parameters, of any depth and shape, every permutation, pool contents, architecture and schedule in every call; every set of people and every adaptive attacker; every pair of secrets of equal length; every decision; all random strings (counted exactly)", "why_tests_cant": "Secrecy is a statement about the distribution over all random strings, and the tree is of any size.", "anchors": ["shamir/shamir.go: Split", "shamir/shamir.go: SplitGeneric", "shamir/shamir.go: SplitP", "shamir/shamir.go: Combine"]}
{"id": "C88", "title": "Combine, Regenerate and SplitP with machine integers and bounded memory", "statement": "On a machine whose int has W bits, with wrap-around arithmetic and with any limit on the size of an allocation: Combine, on parts that are in memory, does exactly what it does with unbounded integers and memory. So does Regenerate as long as a slice of numNewShares slices can be allocated. If it cannot, or numNewShares is negative, Regenerate panics on every list of parts that passes the length checks (even one with duplicate tags) and reports the same error on the others; so with len(parts)+numNewShares > 256 it loops forever or panics, and never returns shares. SplitP has exactly the outcomes it has with unbounded integers if a share of len(secret)+1 bytes can be allocated, and panics before it starts a goroutine otherwise, even when len(secret)+1 wraps around. On a 32-bit machine SplitP's uint32 counters never lose bytes: every run that ends returns shares of the whole secret.", "quantifier": "all widths from 16 bits, memory limits, lists of parts that are in memory, int values of numNewShares, random sources; all secrets representable as a slice, parts, thresholds, permutations and schedules", "why_tests_cant": "The boundary cases need arguments and memory of the order of 2^31 or 2^47 and range over every machine.", "anchors": ["shamir/shamir.go: Combine, Regenerate, SplitP"]}
{"id": "C89", "title": "Secrecy with random bytes that are not ideal", "statement": "The secrecy statements assume ideal random bytes. Here the bytes come from any source, given by the strings it delivers in its equally likely internal states (the seeds of a pseudo-random generator, say). The probability that an attacker (one of C67 asking for many splits, of C83 collecting original and regenerated shares, or of C87 winning people over) says yes then differs between the two worlds by at most the sum of the advantages with which the two runs of that same attack, seen as tests, tell the source from ideal bytes: whoever breaks the secrecy of Split fed by a pseudo-random generator breaks the generator. It also differs by at most twice the statistical distance between the source and ideal bytes. With krawczyk.Split the advantage that can be had against the cipher (C75) is added. Someone not qualified (C87) who names a secret is right for at most K*256^M pairs of a secret and a state if no string of M bytes occurs in more than K states: d missing bits of entropy help by a factor of at most 2^d.", "quantifier": "every source, attacker, conclusion, guess, tree of calls, number of requests and bytes; pool contents, permutations, schedules, builds as in C67, C75, C83, C87", "why_tests_cant": "Speaks about every source and every attacker.", "anchors": ["shamir/shamir.go: Split, SplitGeneric, SplitP, Regenerate", "krawczyk/krawczyk.go: Split"]}
{"id": "C90", "title": "How far CSPRNG.Perm is from a uniform shuffle", "statement": "Perm(n) of the seeded generator exchanges element i with element 1 + s[i] mod (n-i), not with a random one of those from i on. Counted exactly, over all values the bytes of the key stream can have: of the 256 values of a byte, 256/n leave a given remainder modulo n, one more if the remainder is less than 256 mod n. For n >= 3 the first element is never 0; it is v (0 < v < n) for exactly the key streams whose first byte leaves remainder v-1; with remainder n-1 the call panics. For n >= 4 the last element is n-1 for all key streams whose first byte leaves none of the two largest remainders modulo n and whose second byte does not leave the largest modulo n-1: for n = 255 that is 254*255 of 65536 key streams, 98.8 percent, instead of one in 255. Consequently, in SplitWithRandomizer with 20 or more parts and in SplitWithRandomizerOld, the first share has tag 2 for 2 of 256 key streams, each tag from 3 to 255 for one of 256, tag 1 for none; and with 255 parts the last share has tag 255 for 254*255 of 65536.", "quantifier": "every n from 3 (4) to 255, every length of the counted strings, every secret, parts, threshold, pool contents, build", "why_tests_cant": "Exact numbers over all key streams, for every n and all arguments of the split functions; a test draws a few.", "anchors": ["csprng/csprng.go: Perm", "shamir/shamir.go: SplitWithRandomizer, SplitWithRandomizerOld"]}
{"id": "C91", "title": "What Regenerate makes of altered or foreign parts", "statement": "Regenerate cannot notice wrong parts. Whatever parts it accepts - genuine, altered, from different splits - any as many of the given parts and the new shares (distinct tags) as there were parts, or more, combine to what the given parts combine to. If one part is replaced by another of the same length and tag, and the random bytes are the same, Regenerate again succeeds and draws the same tags; a new share with the tag of one of the other parts does not change, every other new share changes at exactly the positions where the replaced part changed. So if one of threshold or more genuine shares is altered, every new share, unless it has the tag of another given share, is wrong at exactly the positions where the altered one is. And a participant can, by a change of its own part that depends only on the tags and on the difference it wants, make given parts and new shares ones of the secret XORed with that difference.", "quantifier": "every list of parts, replacement, number of new shares, random bytes, desired difference; all non-zero distinct tags for the last sentence", "why_tests_cant": "All lists of parts, all alterations and all random bytes.", "anchors": ["shamir/shamir.go: Regenerate, Combine"]}
{"id": "C92", "title": "What altered pieces do to krawczyk.Combine when pieces are missing", "statement": "Give krawczyk.Combine threshold or more shares of krawczyk.Split or SplitWithRandomizer, metadata and indices intact, the pieces XORed with any strings. It reports no error and returns the secret XORed with a string that depends only on the indices given and on those strings: the first pieces of the Reed-Solomon code word that the strings belong to. If only one piece, number i0, is altered, by XOR with delta, the result has the secret's length, and a byte of it is wrong exactly if delta is nonzero at that byte's position in its piece of the secret and this piece is either number i0 itself, or one whose share was not given while fewer than threshold of the shares given have an index below i0. So with exactly threshold shares one altered byte damages the same position of every piece of the secret that is missing, and an altered parity piece is not noticed and harmless if all data pieces are given.", "quantifier": "every secret, parameters, block cipher, key and random bytes, set of at least threshold shares in any order with nil entries anywhere, and all alterations of the pieces", "why_tests_cant": "All secrets, subsets and alterations.", "anchors": ["krawczyk/krawczyk.go: Combine, Split, SplitWithRandomizer"]}
{"id": "C93", "title": "What altered metadata does to krawczyk.Combine", "statement": "Give krawczyk.Combine threshold or more shares of krawczyk.Split or SplitWithRandomizer whose 21 bytes of metadata have been replaced by anything with distinct tags and whose pieces have been XORed with anything, the indices intact. Let md be what shamir.Combine makes of the metadata given. krawczyk.Combine decrypts, under the first 16 bytes of md, as many bytes of the ciphertext (padded with zeros, XORed with what the code makes of the differences of the pieces) as the last four bytes of md say; it reports an error (short data) exactly if this length is more than the pieces hold. So nothing else is checked. In particular a participant who knows the tags that take part and the length of the secret can choose the length of the result: with a multiplier computed from the tags he can make Combine return, without an error, the secret cut to any shorter length, or followed by bytes that were never in it, up to the size of the pieces; a longer length makes it fail.", "quantifier": "every secret, parameters, block cipher, key and random bytes, set of at least threshold shares in any order with nil entries anywhere, every replacement of the metadata and alteration of the pieces; every desired length", "why_tests_cant": "All secrets, subsets and alterations.", "anchors": ["krawczyk/krawczyk.go: Combine, Split, SplitWithRandomizer"]}
{"id": "C94", "title": "Detecting and correcting wrong krawczyk shares with nothing but Combine", "statement": "Of the shares of a krawczyk.Split or SplitWithRandomizer, some are received, at most e of them wrong in whatever way. If threshold+e or more of those received agree, in that krawczyk.Combine returns the same string for any threshold of them, that string is the secret; if threshold+2e or more were received there are such shares. If threshold+1 shares are received and one of them has an altered piece, then leaving out that one gives the secret, and leaving out any other gives, without an error, a string of the same length that is not the secret, provided a position is altered that is not padding in the last piece: so the results of leaving out each in turn agree only if nothing is wrong there.", "quantifier": "every secret, parameters, block cipher, key and random bytes, set of shares, number e, received shares within e of those sent, alteration", "why_tests_cant": "All secrets, subsets and alterations.", "anchors": ["krawczyk/krawczyk.go: Combine, Split, SplitWithRandomizer"]}
{"id": "C95", "title": "The bounds for detecting and correcting wrong krawczyk shares are the best possible", "statement": "If krawczyk.Split or SplitWithRandomizer made fewer than threshold+2e shares, then there is another secret of the same length that the same call with the same random bytes shares too, with the same metadata in every share, and there are received shares, each of its claimed length, metadata and index, that differ in at most e places from the shares of the first secret and in at most e places from those of the second: no method whatever can tell from them which was shared, so C94's bound threshold+2e is the best possible. So is its threshold+e: in every run with at least threshold+e-1 shares, e of them can be altered so that threshold+e-1 of them agree, in that krawczyk.Combine returns the same for any threshold of these, on a wrong secret of the same length.", "quantifier": "every secret, parameters, block cipher, key, random bytes and e for which a run succeeds", "why_tests_cant": "An impossibility, over all runs.", "anchors": ["krawczyk/krawczyk.go: Split, SplitWithRandomizer"]}
