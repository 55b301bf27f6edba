import json,re,glob,os
m={c['property']:c for c in json.load(open('/verif/MANIFEST.json'))['claims']}
props=[json.loads(l) for l in open('/verif/properties.jsonl')]
how={
'C01':('Split with pool buffers, makePolynomialsWithBuff, transposeMatrixBuffer, Horner evaluation with vector operations of every build; Combine','closed form of Split by loop invariants (SplitFacts), then the Lagrange interpolation theorem (PolyFacts, CombineFacts)'),
'C02':('as C01','closed form; also says which random byte each coefficient is'),
'C03':('the argument checks of the five functions over Z','case analysis; "iff" direction from the closed forms'),
'C04':('Split as a function of the coefficient buffer','explicit bijection of buffers (XOR with a polynomial vanishing on the coalition), lifted to counting; exact number of buffers per view'),
'C05':('Combine in the panic monad','division is never by zero for distinct tags; total case analysis'),
'C06':('Combine','symmetry of Lagrange interpolation under permutations'),
'C07':('Combine','existence and uniqueness of the interpolating polynomial'),
'C08':('Combine','injectivity of interpolation in one sample'),
'C09':('Combine','linearity of Lagrange interpolation'),
'C10':('Split, Combine','counting as C04'),
'C11':('SplitGeneric','closed form, comparison with Split, counting'),
'C12':('SplitP as a small-step machine: caller, one goroutine per 1024-byte chunk, WaitGroup, locked random source','invariant over all schedules; disjointness of written cells; progress'),
'C13':('the uint32 arithmetic of SplitP','arithmetic modulo 2^32; what happens from 2^32-1023 bytes on'),
'C14':('Regenerate with fuelled duplicate loop','interpolation'),
'C15':('as C14','the loop variable assignment is lost, so the tags are the raw bytes'),
'C16':('as C14','pigeonhole on 256 tags for divergence for every fuel, recurrence of every byte for termination'),
'C17':('as C14','case analysis'),
'C18':('SplitWithRandomizer(Old), CSPRNG with fixed key stream','closed form'),
'C19':('GetUniqueBytes with fuelled loop','exact characterisation of termination'),
'C20':('as C18','tag arithmetic'),
'C21':('as C18','explicit formula for the leaked bytes; counting statement refuted'),
'C22':('CSPRNG.Read restarts at offset 0','key stream algebra'),
'C23':('CSPRNG.Perm','swap loop keeps a permutation'),
'C24':('CSPRNG.GetUniqueBytes','loop invariants for both branches'),
'C25':('randomizer.Randomizer.Perm','refutation with exact condition'),
'C26':('randomizer.Randomizer.Read','position invariant'),
'C27':('galois.go and its tables','kernel computation over all 65536 pairs (the whole domain), field axioms from log/exp'),
'C28':('log/exp and table variants, shamir tables','as C27'),
'C29':('GalExp with Go int wrap-around','exponent arithmetic modulo 255, overflow of the 64-bit product'),
'C30':('AddVector/MulConstVector of the portable, amd64 (any CPU flags) and arm64 builds, SIMD steps','block induction; nibble tables checked exhaustively'),
'C31':('as C30, unequal lengths','case analysis per build'),
'C32':('krawczyk.Split/Combine, OFB, Reed-Solomon model, metadata layout','closed form; interpolation'),
'C33':('as C32','closed form'),
'C34':('as C32','case analysis'),
'C35':('as C32','counting the distinct indices'),
'C36':('krawczyk.Combine on arbitrary bytes','exact condition'),
'C37':('as C32','reduction to C04'),
'C38':('krawczyk.SplitWithRandomizer','tags are key bytes'),
'C39':('as C38','equal key streams cancel'),
'C40':('as C38','closed form'),
'C41':('aes.go, OFB','stream XOR is an involution; OFB specification'),
'C42':('worker.go','composition'),
'C43':('utils/bufferpool.go as shared channel; goroutines as programs with single byte accesses','invariants over all interleavings; ownership; isolation (every interleaving is like running alone)'),
'C44':('sequences of calls over the pool','induction on the history'),
'C45':('as C44','explicit second call'),
'C46':('heap with slices (array, offset, length, capacity)','computation on the heap; append'),
'C47':('NewCSPRNGWithKeyIV on the heap','aliasing of the IV'),
'C48':('transposeMatrixBuffer, transpose','loop invariants'),
'C49':('all split functions','closed forms compared'),
'C50':('Split and SplitWithRandomizer as goroutine programs','C43 isolation + refinement of the program to the sequential model'),
'C51':('math/rand 1.17 generator: additive lagged Fibonacci, Int31n, Perm, Read','Perm yields a permutation; termination of rejection sampling from any state'),
'C52':('as C51','recurrence of the output words; explicit prediction of coefficients'),
'C53':('Seed','seed is reduced modulo 2^31-1; counting'),
'C54':('vector_amd64.s and vector_arm64.s as instruction lists run by machines with registers, flags and flat memory','symbolic execution of one iteration, induction over iterations, equality with the block model of C30'),
'C55':('krawczyk.Combine on arbitrary pieces','complete case analysis against an independent specification'),
'C56':('as C55','XOR of a ciphertext piece carries through'),
'C57':('shamir.Combine','linearity'),
'C58':('as C55','RS model'),
'C59':('histories of Split and Regenerate','induction on the history; counting as C04 over the union of old and new tags'),
'C60':('Regenerate with too few parts','explicit tag x1*x2/(x1+x2+x3)'),
'C61':('main.go','induction on the doubling loop'),
'C62':('calls that load and store through slices of one heap, with both pools in the state (MemCalls.v); client programs (SpecMemCalls.v)','loop simulation between the memory program and the value program, with a write footprint per step; induction on client programs'),
'C63':('krawczyk.Combine on the heap of C62 (KrMem.v), with the in-place reconstruction documented by the Reed-Solomon library','byte-wise write footprints; the scan keeps windows of the shares, which are pairwise apart; simulation of the value program'),
'C64':('krawczyk.Split, krawczyk.SplitWithRandomizer and SplitWithRandomizerOld on the heap of C62 (KrSplitMem.v), and programs over both packages (SpecKrSplitMem.v); SplitP with goroutines that load and store through slices (SplitPMem.v)','simulation of the value programs phase by phase (all phases only allocate, except the shamir call of C62); invariant over all reachable client states'),
'C65':('mSplit and mSplitWithRandomizer of MemCalls.v and the programs of SpecMemCalls.v; SpecRemain.v says what it means for a buffer in the pool to hold the secret','mSplitRest_strong (MemSplit.v) follows the two buffers through fill, transpose, evaluation and Put; functions that never touch a pool commute with replacing the pools (poolfree, RemainFacts.v), which with C62 on empty pools shows they leave every array alone; induction over the program'),
'C66':('Trace.v: the functions of Vector.v, Polynomial.v and Shamir.v with a record of table reads and data-dependent branches added, and the machines of Asm.v with a record of program counter and addresses; SpecTrace.v says what is recorded','erasure lemmas (same results as the model without records); exact records by loop invariants (TraceFacts.v); injectivity by cutting equal records into blocks of equal length (CombineTrace.v); a step of the machines preserves \'same but for the bytes\' (AsmTrace.v)'),
}
extra=json.load(open('/verif/tools/how.json')) if os.path.exists('/verif/tools/how.json') else {}
how.update({k:tuple(v) for k,v in extra.items()})
rows=[]
for p in props:
    i=p['id']; a,b=how[i]
    rows.append(f"| {i} | {p['title']} | {a} | {b} | {', '.join('`'+t+'`' for t in m[i]['theorems'])} |")
s=open('/verif/tools/design_body.md').read().replace('@@TABLE@@','\n'.join(rows))
open('/verif/DESIGN.md','w').write(s)
