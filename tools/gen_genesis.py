#!/usr/bin/env python3
"""Writes rocq/theories/Spec_Genesis.v and Model_Genesis.v.
The records come from include/cardano/genesis.hpp; the model's to_json / from_json bodies come, key by key and in order, from the C++ sources.
The specification's keys do not: they are typed below from the genesis files of the Cardano main network (test/data/genesis/*.json)."""
import re, os
R='/repo'; OUT=os.path.join(os.path.dirname(__file__),'..','rocq','theories')
hpp=open(R+'/include/cardano/genesis.hpp').read()
ERAS=['byron','shelley','alonzo','conway']
PRE={('byron','SoftforkRule'):'by_sr',('byron','TxFeePolicy'):'by_fp',('byron','BlockVersionData'):'by_bv',('byron','ProtocolConsts'):'by_pc',('byron','DelegationData'):'by_dd',('byron','VssCert'):'by_vc',('byron','GenesisParameters'):'by_gp',
('shelley','GenesisProtocolVersion'):'sh_pv',('shelley','ExtraEntropy'):'sh_ee',('shelley','ProtocolParameters'):'sh_pp',('shelley','GenDeleg'):'sh_gd',('shelley','GenesisParameters'):'sh_gp',
('alonzo','PriceFraction'):'al_pf',('alonzo','ExecutionPrices'):'al_ep',('alonzo','ExecutionUnits'):'al_eu',('alonzo','CostModels'):'al_cm',('alonzo','GenesisParameters'):'al_gp',
('conway','PoolVotingThresholds'):'co_pt',('conway','DRepVotingThresholds'):'co_dt',('conway','ConstitutionAnchor'):'co_ca',('conway','Constitution'):'co_cn',('conway','CommitteeThreshold'):'co_ct',('conway','Committee'):'co_cm',('conway','GenesisParameters'):'co_gp'}
# keys in the main network's genesis files, in the order of the struct's fields
SPEC={
'by_sr':'initThd minThd thdDecrement','by_fp':'multiplier summand',
'by_bv':'heavyDelThd maxBlockSize maxHeaderSize maxProposalSize maxTxSize mpcThd scriptVersion slotDuration softforkRule txFeePolicy unlockStakeEpoch updateImplicit updateProposalThd updateVoteThd',
'by_pc':'k protocolMagic vssMaxTTL vssMinTTL','by_dd':'cert delegatePk issuerPk omega','by_vc':'expiryEpoch signature signingKey vssKey',
'by_gp':'avvmDistr blockVersionData ftsSeed protocolConsts startTime bootStakeholders heavyDelegation nonAvvmBalances vssCerts',
'sh_pv':'major minor','sh_ee':'tag',
'sh_pp':'protocolVersion decentralisationParam eMax extraEntropy maxTxSize maxBlockBodySize maxBlockHeaderSize minFeeA minFeeB minUTxOValue poolDeposit minPoolCost keyDeposit nOpt rho tau a0',
'sh_gd':'delegate vrf',
'sh_gp':'activeSlotsCoeff protocolParams genDelegs updateQuorum networkId maxLovelaceSupply networkMagic epochLength systemStart slotsPerKESPeriod slotLength maxKESEvolutions securityParam',
'al_pf':'numerator denominator','al_ep':'prSteps prMem','al_eu':'exUnitsMem exUnitsSteps','al_cm':'PlutusV1',
'al_gp':'lovelacePerUTxOWord executionPrices maxTxExUnits maxBlockExUnits maxValueSize collateralPercentage maxCollateralInputs costModels',
'co_pt':'committeeNormal committeeNoConfidence hardForkInitiation motionNoConfidence ppSecurityGroup',
'co_dt':'motionNoConfidence committeeNormal committeeNoConfidence updateToConstitution hardForkInitiation ppNetworkGroup ppEconomicGroup ppTechnicalGroup ppGovGroup treasuryWithdrawal',
'co_ca':'dataHash url','co_cn':'anchor script','co_ct':'numerator denominator','co_cm':'members threshold',
'co_gp':'poolVotingThresholds dRepVotingThresholds committeeMinSize committeeMaxTermLength govActionLifetime govActionDeposit dRepDeposit dRepActivity minFeeRefScriptCostPerByte plutusV3CostModel constitution committee'}
structs=[]
for era in ERAS:
    ns=re.search(r'namespace %s\n\{(.*?)\}  // namespace %s'%(era,era),hpp,re.S).group(1)
    for m in re.finditer(r'struct (\w+)\n\{(.*?)\n\}',ns,re.S):
        fields=re.findall(r'^    ([\w:<>, ]+?) (\w+);',m.group(2),re.M)
        fields=[(t,n) for t,n in fields if not t.startswith('friend')]
        structs.append((era,m.group(1),PRE[(era,m.group(1))],fields))
def ty(era,t):
    t=t.strip()
    m=re.match(r'std::(?:unordered_)?map<std::string, ([\w:]+)>$',t)
    if m: return ('map',ty(era,m.group(1)))
    return {'std::string':('str',),'uint16_t':('u','16'),'uint32_t':('u','32'),'uint64_t':('u','64'),'int64_t':('i',),'double':('d',),'std::array<int64_t, 251>':('arr',)}.get(t) or ('struct',PRE[(era,t)])
def coqty(t): return {'str':'list Z','u':'Z','i':'Z','d':'F','arr':'list Z'}.get(t[0]) or ('list (list Z * %s)'%atom(t[1]) if t[0]=='map' else t[1]+('' if not usesF(t[1]) else ''))
def atom(t):
    c=coqty(t); return '(%s)'%c if ' ' in c else c
def usesF(p): return True
def lines(src,pat):
    i=src.index(pat); a=src[:i].count('\n')+1; j=src.index('\n}',i); return a, src[:j].count('\n')+2, src[i:j]
def get(t):
    return {'str':'get_str','u':'get_u'+str(t[1] if len(t)>1 else ''),'i':'get_i64','d':'get_dbl','arr':'get_arr251'}.get(t[0]) or ('(get_map %s)'%get(t[1]) if t[0]=='map' else t[1]+'_from')
def put(t): return {'str':'JStr','u':'JUint','i':'JInt','d':'JFloat','arr':'put_arr'}.get(t[0]) or ('put_map %s'%put(t[1]) if t[0]=='map' else t[1]+'_to')
def rel(t): return {'str':'is_str','u':'is_int','i':'is_int','d':'is_dbl','arr':'is_ints'}.get(t[0]) or ('(is_map %s)'%rel(t[1]) if t[0]=='map' else t[1]+'_file')
def rng(t,x):
    if t[0]=='u': return ['0 <= %s < 2 ^ %s'%(x,t[1])]
    if t[0]=='i': return ['- 2 ^ 63 <= %s < 2 ^ 63'%x]
    if t[0]=='arr': return ['length (%s) = 251%%nat'%x,'Forall (fun v => - 2 ^ 63 <= v < 2 ^ 63) (%s)'%x]
    if t[0]=='map':
        r=rng(t[1],'(snd e)')
        return ['Forall (fun e => %s) (%s)'%(' /\\ '.join(r),x)] if r else []
    if t[0]=='struct': return ['%s_ok (%s)'%(t[1],x)]
    return []
def dbls(t,x):
    if t[0]=='d': return '[%s]'%x
    if t[0]=='struct': return '%s_doubles (%s)'%(t[1],x)
    return None
spec=open(OUT+'/../../tools/spec_genesis_head.txt').read()
for era,name,p,fields in structs:
    a=hpp.index('struct %s\n'%name, hpp.index('namespace %s\n'%era)); ln=hpp[:a].count('\n')+1
    spec+='(** %s::%s, include/cardano/genesis.hpp:%d *)\n'%(era,name,ln)
    spec+='Record %s := { %s }.\n'%(p,'; '.join('%s_%s : %s'%(p,n,coqty(ty(era,t))) for t,n in fields))
    keys=SPEC[p].split(); assert len(keys)==len(fields),(p,keys,fields)
    spec+='Definition %s_file (p : %s) (j : json) : Prop :=\n  %s.\n'%(p,p,' /\\\n  '.join('(exists v, field j "%s" v /\\ %s (%s_%s p) v)'%(k,rel(ty(era,t)),p,n) for k,(t,n) in zip(keys,fields)))
    r=sum((rng(ty(era,t),'%s_%s p'%(p,n)) for t,n in fields),[])
    spec+='Definition %s_ok (p : %s) : Prop := %s.\n'%(p,p,' /\\ '.join(r) if r else 'True')
    d=[x for x in (dbls(ty(era,t),'%s_%s p'%(p,n)) for t,n in fields) if x]
    spec+='Definition %s_doubles (p : %s) : list F := %s.\n'%(p,p,' ++ '.join(d) if d else '[]')
    if name=='GenesisParameters': spec+='Definition %s_keys : list string := [%s].\n'%(p,'; '.join('"%s"%%string'%k for k in keys))
    spec+='\n'
open(OUT+'/Spec_Genesis.v','w').write(spec)
model=open(OUT+'/../../tools/model_genesis_head.txt').read()
for era,name,p,fields in structs:
    src=open(R+'/src/%s/genesis.cpp'%era).read(); tys={n:ty(era,t) for t,n in fields}
    a,b,body=lines(src,'auto to_json(json& j, const %s&'%name)
    ent=re.findall(r'\{"(\w+)", (?:\w+\.(\w+)|(json\{\}))\}',body)
    model+='(** to_json of %s::%s, src/%s/genesis.cpp:%d-%d *)\n'%(era,name,era,a,b)
    model+='Definition %s_to (p : %s) : json :=\n  JObj [%s].\n'%(p,p,';\n        '.join('(key "%s", %s)'%(k,'JNull' if nul else '%s (%s_%s p)'%(put(tys[f]),p,f)) for k,f,nul in ent))
    a,b,body=lines(src,'auto from_json(const json& j, %s&'%name)
    ent=re.findall(r'j\.at\("(\w+)"\)\s*\.get_to\(\w+\.(\w+)\);',body)
    model+='(** from_json of %s::%s, src/%s/genesis.cpp:%d-%d *)\n'%(era,name,era,a,b)
    model+='Definition %s_from (j : json) : outcome %s :=\n'%(p,p)
    for k,f in ent: model+='  let* v := at_ j "%s" in let* x_%s := %s v in\n'%(k,f,get(tys[f]))
    model+='  Ok {| %s |}.\n\n'%'; '.join('%s_%s := x_%s'%(p,n,n) for t,n in fields)
open(OUT+'/Model_Genesis.v','w').write(model)
