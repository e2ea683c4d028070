import json,re,glob
thms={}
for f in sorted(glob.glob('/verif/rocq/theories/Props*.v')):
    for m in re.finditer(r'^Theorem (C(\d\d)\w*)',open(f).read(),re.M):
        thms.setdefault('C'+m.group(2),[]).append(m.group(1))
note={
'C08':'Claim is false for csrrs on a counter CSR with rs1 != x0 (all rs1 for upper-half counters on Rv64): decoded as RD*. Refuted with a witness; everything else, and what these words decode to, is proved.',
'C09':'FENCE complete; every FENCE.I word is rejected with UnknownExtension, so the Zifencei half of the claim is refuted.',
'C10':'Completeness proved for all rows; "ssamoswap.d only on Rv64" is false: accepted on Rv32 (refuted, exact extent proved).',
'C11':'Complete except the HINT c.add x0, rs2, which decodes as c.ebreak (refuted, exact extent proved).',
'C14':'False; refuted (jalr funct3=1). Proved: lenient32 is exactly the set of illegal words accepted.',
'C15':'False; refuted (c.lwsp x0). Proved: lenient16 is exactly the set of illegal half-words accepted.',
'C21':'False for ssamoswap.d on Rv32 and rdcycleh/rdtimeh/rdinstreth on Rv64 (refuted); the exact conditions are proved.',
'C25':'False: the error is always InvalidOpcode (refuted); rejection and the exact error proved.',
'C27':'False for Zicfiss opcodes: panics (refuted); the exact behaviour for every opcode proved.',
'C29':'False: values of more than 16 bits not ending in 11, and of more than 32 bits, panic (refuted); exact condition proved.',
'C30':'False for sfence.vma, sspopchk, c.sspush, c.sspopchk (refuted for each); exact condition proved.',
'C31':'False e.g. for stores, branches (refuted); as_documented is exactly the set of conforming opcodes, and what is printed for all opcodes is proved.',
'C32':'False for mulhsu ("mulhsu,") and fence ("fence.i") (refuted); injectivity and all other mnemonics proved.',
'C33':'False for shifts by immediate, AMOs, fence, sspush, c.nop (refuted); exact set of opcodes proved.',
'C34':'False for c.beqz/c.bnez/c.srli/c.srai/c.andi (register as number) and c.addi4spn (hex without 0x) (refuted); all others proved.',
'C35':'Proved for every decoded word legal as the decoded opcode, except ssamoswap.w/.d, where aq and rl (and nothing else) are lost (refuted). A csrrs of a counter is decoded as a counter read, losing rs1 (refuted).',
'C36':'Proved for all valid instructions but csrrs of a counter CSR and c.add x0, rs2 (both refuted).',
'C37':'The equivalence is proved for all accepted words. That legal words of one opcode differ in operand bits only is false for aq/rl of ssamoswap (refuted) and proved for all other opcodes.',
'C38':'Proved for all half-words legal as the decoded opcode; the HINT c.add x0, rs2 is decoded as c.ebreak (refuted).',
'C55':'The exact characterisation with the wider entries is proved. With the entries of the standard alone it is false for csrrs on a counter CSR and c.add x0, rs2 (refuted); these are proved to be the only exceptions.',
'C52':'False for the pairs of opcode and operand in lacking (5) and unnamed (54); refuted, and the two lists are proved to be exactly the exceptions.',
'C57':'Both documented examples are false (refuted). Proved: set is the inverse of what its example shows, and equal to it exactly for masks that are their own inverse.',
'C58':'Both halves have exceptions (refuted); they are proved to be exactly misplaced, incurable, misplaced16.',
'C70':'Two examples are under the wrong tag and 13 are not followed by Display (both refuted); these are proved to be all. The operands C52 takes a tag to name are proved to be those of its examples.',
'C59':'Formats agree for all; extension differs for fence, text for fence and mulhsu (refuted); these are proved to be all differences.',
}
claims=[]
for l in open('/verif/properties.jsonl'):
    d=json.loads(l); c=d['id']
    t=thms.get(c,[])
    partial=any(x.endswith('_partial') or x.endswith('_refuted') for x in t)
    st='proved' if t and not partial else 'partial'
    claims.append({'property':c,'status':st,'theorems':t,'note':note.get(c,'' if t else 'not yet proved')})
json.dump({'claims':claims},open('/verif/MANIFEST.json','w'),indent=1)
for c in claims: print(c['property'],c['status'],len(c['theorems']))
