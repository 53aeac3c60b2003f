"""Writes the table of DESIGN.md's plan for C59 onwards: property, files it is stated and proved in, method."""
import re,glob,json,os
os.chdir('/verif')
M={
'CbApiProps':('CbModel','case analysis over providers; OSC 52 and base64 by list induction'),
'CbProps':('CbModel','list induction over history, round trips'),
'CfProps':('CfModel','invariant over key sequences'),
'CmdProps':('CmdModel','induction over nested messages'),
'CoProps':('CoModel','case analysis over the environment, arithmetic'),
'CrProps':('CrModel','transition system of Start/Stop/reads, invariants over traces'),
'CwProps':('CwModel','transition system over writes and cancellations, invariants'),
'EeProps':('EeModel on KeysModel, InModel, PdModel, InlineModel','composition of the refinement theorems of the parts'),
'FmCompProps':('FmCompModel','case analysis over the messages'),
'FmProps':('FmModel','invariant over key sequences'),
'FmViewProps':('FmModel, SyModel','list algebra over the drawn lines'),
'TmMxProps':('MxModel, TmMxModel','a lock makes calls serialisable (MxProofs: invariant over all schedules), then TmProofs for one call at a time'),
'SyMxProps':('MxModel, SyMxModel','a lock makes calls serialisable (MxProofs), then SyModel.manage for one call at a time'),
'SecProps':('KeysModel, SyModel, MsModel','case analysis over what Read can return; SyRenderProps; computation on the screen model'),
'KeysNameProps':('KeysModel','comparison with the table of documented names; case analysis over what Read can return'),
'InlineMxProps':('MxModel, InlineMxModel','a lock makes calls serialisable (MxProofs), then C11'),
'InlineIoProps':('InlineModel, InlineIoModel','the failed calls drop out of the history, then C11; the refutation by computation'),
'WcMxProps':('WcMxModel, WcModel, MxModel','each body, step by step, against the call it is; MxProofs serialises them; then the invariants of WcProps'),
'JcProps':('JcModel','transition system of program, command, terminal and shell; invariant over all schedules'),
'RmProps':('RmModel, RpModel, MxModel, RenderModel','each body, step by step, against the call it is; MxProofs serialises them; then C03'),
'RpProps':('RpModel, RenderModel','invariant separating the rows of the buffers from those the renderer remembers, then C03'),
'RenderIoProps':('RenderModel, RenderIoModel','every operation against its counterpart that cannot fail (invariant on the buffered output), then C03'),
'CbMxProps':('MxModel, CbMxModel','a lock makes calls serialisable (MxProofs), then induction over the order of the calls'),
'FmPatProps':('FmPatModel','a matcher proved against the language of the pattern; the code'"'"'s own pattern parsed from its text'),
'InKeysProps':('InModel','invariant over key sequences, zipper refinement'),
'InProps':('InModel','left-to-right cluster oracle, list induction, invariants'),
'InViewProps':('InViewModel, SyModel','list algebra over the drawn text, window invariant'),
'InlineProps':('InlineModel, TermEmu','simulation against the terminal emulator'),
'KeysMixProps':('KeysModel','induction over chunked input'),
'KeysProps':('KeysModel','induction over byte and chunk lists'),
'LifePanicProps':('LifeModel','case analysis over failure points'),
'LifeProps':('LifeModel','invariant over call and failure sequences'),
'LsProps':('LsModel','invariants over key sequences, permutation lemmas'),
'MsEeProps':('MsEeModel on KeysModel, SelModel, PdModel, InlineModel','the MultiSelect refines a spectator, stroke by stroke; frames of changing height are admissible; composed with C283 and C255'),
'SelEeProps':('SelEeModel on KeysModel, SelModel, PdModel, InlineModel','the Select refines a spectator, stroke by stroke; frames of changing height are admissible; composed with C283 and C255'),
'CfEeProps':('CfEeModel on KeysModel, CfModel, PdModel, InlineModel','the dialog refines a spectator, stroke by stroke; composed with C283 and C255'),
'TaEeProps':('TaEeModel on KeysModel, TaModel, TaViewModel, PdModel, InlineModel','the area refines a plain editor, stroke by stroke; composed with C283 and C255'),
'ThProps':('ThModel on InViewModel, LsModel, SyModel','fold over the calls; C305 and C31 composed with the render theorem of SyProofs on the emulator'),
'CtProps':('CtModel on TbModel, MdModel, VpModel, PgModel','fold over the calls with the Theme calls erased'),
'LsRowProps':('LsRowModel','list algebra over the drawn rows'),
'LsViewProps':('LsModel','list algebra over the drawn rows'),
'LyApiProps':('LyApiModel','induction over the tree, list algebra'),
'LyProps':('LyModel','list induction, lia'),
'MdEeProps':('MdEeModel on MdModel, PdModel, InlineModel, TermEmu','simulation: every drawn row stays on the screen'),
'MdProps':('MdModel','invariants over key sequences, explicit rows'),
'MsProps':('MsModel','round trips, state-machine invariants'),
'MsValProps':('MsModel','arithmetic'),
'MtProps':('MtModel','transition system, invariants'),
'PdProps':('PdModel, InlineModel','refinement of the inline renderer inside the event loop'),
'PdMiscProps':('PdModel, CmdModel, TeaModel, KeysModel','induction over the messages; traces'),
'PdResumeProps':('PdModel, InlineModel','refinement, with Suspend and Resume'),
'PgProps':('PgModel','arithmetic, invariants'),
'RenderProps':('RenderModel, TermEmu','simulation against the terminal emulator'),
'RgProps':('RgModel','induction over the clusters, window invariant'),
'RtHtmlProps':('RtModel','list induction, round trip with an independent reader'),
'RtReaderProps':('RtModel','list induction, round trip with an independent reader'),
'RtRtfProps':('RtModel','list induction, round trip with an independent reader'),
'SelProps':('SelModel','invariants over key sequences'),
'SelViewProps':('SelModel','list algebra over the drawn lines'),
'SyColorProps':('SyModel','finite case analysis lifted by lemmas, arithmetic'),
'SyMoreProps':('SyModel','width algebra'),
'SyRenderProps':('SyModel','width algebra, list induction'),
'SyTextProps':('SyModel','width algebra, list induction'),
'SyThemeProps':('SyModel','case analysis, merge algebra'),
'TaKeysProps':('TaModel','invariant over key sequences'),
'TaEdgeProps':('TaModel','case analysis over keys; what is attempted is read off the same area without a validator'),
'TaObsProps':('TaModel','case analysis over the keys, invariant'),
'TaProps':('TaModel','invariant over key sequences, zipper refinement'),
'TaViewProps':('TaViewModel','list algebra over the drawn lines'),
'TbProps':('TbModel','invariants, permutation and stability'),
'TbViewProps':('TbModel','list algebra over the drawn rows'),
'TeaOrderProps':('TeaModel','invariants over all traces'),
'TeaProps':('TeaModel','invariants over all traces'),
'TeaSendProps':('TeaModel','invariants over all traces'),
'TeaSourceProps':('TeaModel','invariants over all traces'),
'TmProps':('TmModel, TermEmu','computation and list algebra against the emulator'),
'VpProps':('VpModel','invariants over scroll operations'),
'WcProps':('WcModel','case analysis over the console calls, simulation'),
'XcProps':('XcModel','case analysis'),
'XwProps':('XwModel','transition system, invariants'),
}
by={}
for f in sorted(glob.glob('rocq/theories/*.v')):
    n=os.path.basename(f)[:-2]
    for i in set(re.findall(r'^(?:Theorem|Lemma|Corollary)\s+(C\d+)_',open(f).read(),re.M)): by.setdefault(i,[]).append(n)
rows=[]
for l in open('properties.jsonl'):
    d=json.loads(l); i=d['id']
    if int(i[1:])<59: continue
    fs=by[i]
    rows.append('| %s | %s | %s | %s |'%(i,d['title'],', '.join(sorted(set(M[f][0] for f in fs))),'; '.join(dict.fromkeys(M[f][1]+' ('+f+'.v)' for f in fs))))
s=open('DESIGN.md').read()
B='<!-- plan C59+ (tools/mkplan.py) -->'; E='<!-- end of plan -->'
t=B+'\n\n| id | property | model | proof |\n|----|----------|-------|-------|\n'+'\n'.join(rows)+'\n\n'+E
if B in s: s=s[:s.index(B)]+t+s[s.index(E)+len(E):]
else:
    k='No property is considered inexpressible;'
    assert s.count(k)==1
    s=s.replace(k,t+'\n\n'+k)
open('DESIGN.md','w').write(s); print(len(rows))
