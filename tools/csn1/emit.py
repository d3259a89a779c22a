import sys, os; sys.path.insert(0, os.path.dirname(os.path.abspath(__file__)))
from ir import *
import re
DL=['Packet_Access_Reject_t','Packet_Cell_Change_Order_t','Packet_Cell_Change_Continue_t','Packet_Downlink_Assignment_t','Packet_Measurement_Order_t','Packet_Neighbour_Cell_Data_t','Packet_Serving_Cell_Data_t','Packet_Paging_Request_t','Packet_PDCH_Release_t','Packet_Polling_Request_t','Packet_Power_Control_Timing_Advance_t','Packet_PRACH_Parameters_t','Packet_Queueing_Notification_t','Packet_Timeslot_Reconfigure_t','Packet_TBF_Release_t','Packet_Uplink_Ack_Nack_t','Packet_Uplink_Assignment_t','Packet_Handover_Command_t','Packet_PhysicalInformation_t','Packet_Downlink_Dummy_Control_Block_t','PSI1_t','PSI2_t','PSI3_t','PSI5_t','PSI13_t']
RO=['IA_RestOctets_t','SI13_RestOctets_t','P1_Rest_Octets_t','P2_Rest_Octets_t']
UL=['Packet_Resource_Request_t','Packet_Downlink_Ack_Nack_t','Packet_Control_Acknowledgement_t','Packet_Uplink_Dummy_Control_Block_t','Packet_Cell_Change_Failure_t','Packet_Measurement_Report_t','Packet_Mobile_TBF_Status_t','Packet_PSI_Status_t','EGPRS_PD_AckNack_t','Packet_Pause_t','Packet_Enh_Measurement_Report_t','Additional_MS_Rad_Access_Cap_t','Packet_Cell_Change_Notification_t','Packet_SI_Status_t']
UL=[u for u in UL if u in IR]
defs=open('/repo/include/osmocom/gprs/rlcmac/csn1_defs.h').read().split('\n')
c60l=open('/repo/src/rlcmac/csn1_ts_44_060.c').read().split('\n')
def sline(n):
    if n=='MS_Radio_Access_capability2_t': n='MS_Radio_Access_capability_t'
    for f,ls in (('csn1_defs.h',defs),('csn1_ts_44_060.c',c60l)):
        for i,l in enumerate(ls):
            if re.search(r'\}\s*'+re.escape(n)+r'(\s+POST_PACKED)?\s*;',l) or re.search(r'typedef\s+.*\b'+re.escape(n)+r'\s*;',l): return f,i+1
    return None
B=lambda b:'true' if b else 'false'
Z=lambda z:str(z) if z>=0 else '(%d)'%z
CBL={'callback_init_Cell_Selection_Params_FREQUENCY_DIFF':1,'callback_init_Cell_Sel_Param_2_FREQUENCY_DIFF':1,'callback_init_luMode_Cell_Sel_Param_FREQUENCY_DIFF':1,'callback_init_COMP_Ncell_Param_FREQUENCY_DIFF':1}
def em(e):
    k=e[0]
    if k=='bit': return 'DBit %d %d %s'%(e[1],e[2],B(e[3]))
    if k=='null': return 'DNull %d'%e[1]
    if k=='uint': return 'DUint %d %d %d %s'%(e[1],e[2],e[3],B(e[4]))
    if k=='uintoff': return 'DUintOff %d %d %d %s'%(e[1],e[2],e[3],Z(e[4]))
    if k=='uintlh': return 'DUintLH %d %d %d'%e[1:4]
    if k=='uintarr': return 'DUintArr %d %d %d %d'%e[1:5]
    if k=='tarr': return 'DTArr (%s %d) %d %d %d %s'%({'fix':'CFix','var':'CVar','varoff':'CVarOff'}[e[1]],e[2],e[3],e[4],e[5],e[6])
    if k=='bitmap': return 'DBitmap %d %d %d'%e[1:4]
    if k=='type': return 'DType %d %d %s %s'%(e[1],e[2],B(e[3]),e[4])
    if k=='choice': return 'DChoice %d %d %s'%(e[1],e[2],'ch_'+e[3])
    if k=='ser': return 'DSer %d %d %d %s'%(e[1],e[2],e[3],e[4])
    if k=='union': return 'DUnion %s %d%%nat %d %d'%(B(e[1]),e[2],e[3],e[4])
    if k=='exist': return 'DExist %s %d %d'%(B(e[1]),e[2],e[3])
    if k=='next': return 'DNext %s %d%%nat %d %d %s'%(B(e[1]),e[2],e[3],e[4],B(e[5]))
    if k in('varbmp','lvarbmp','lvarbmp1'): return 'DVarBmp %s %s %s %d %d %d'%(B(k!='varbmp'),B(k=='lvarbmp1'),Z(e[1]),e[2],e[3],e[4])
    if k=='pad': return 'DPad'
    if k=='vararr': return 'DVarArr %s %d %d %d'%(Z(e[1]),e[2],e[3],e[4])
    if k=='recarr': return 'DRecArr %d %d %d %d'%e[1:5]
    if k=='rectarr': return 'DRecTArr %s %d %d %d %d %d %s'%(B(e[1]),e[2],e[3],e[4],e[5],e[6],e[7])
    if k=='fixed': return 'DFixed %d %d'%e[1:3]
    if k=='trap': return 'DTrap %s'%Z(e[1])
    if k=='cb':
        _,fn,o1,o,r,S,fld=e
        if fn in CBL:
            o0,t=member(types[S],fld); st=size(t[2])[0]; d=member(t[2],'FREQ_DIFF_LENGTH')[0]
            return 'DCallback (CbFreqDiff 16 %d %d) %d %d %d'%(st,d,o1,o,r)
        if 'map_Nr' in fn: return 'DCallback CbTddMap %d %d %d'%(o1,o,r)
        return 'DCallback (CbTddInfo %d) %d %d %d'%(foff('UTRAN_TDD_NeighbourCells_t','BitsInCellInfo'),o1,o,r)
    raise Exception(k)
out=[];done=set()
def name(m,a):
    if m in('M_UNION','M_UNION_LH','M_THIS_EXIST','M_THIS_EXIST_LH','M_PADDING_BITS'): return m
    return m+' '+', '.join(x for x in a[1:])
def cite(n):
    f,l0,l1=where[n]; c='%s:%d-%d'%(f.split('/')[-1],l0,l1)
    return c
def emit(n):
    if n in done: return
    done.add(n)
    for e in IR[n]:
        for s in subs(e): emit(s)
        if e[0]=='choice' and 'ch_'+e[3] not in done:
            done.add('ch_'+e[3])
            out.append('(** %s, the list of alternatives. *)'%cite(e[3]))
            out.append('Definition ch_%s : descr :='%e[3])
            for (b,v,k,x),src in zip(CH[e[3]],choices[e[3]]):
                out.append('  (DAlt %d %d %s (%s DEnd)'%(b,v,B(k),em(x)))
            out.append('  DEnd'+')'*len(CH[e[3]])+'.')
    sl=sline(n)
    out.append('(** %s; the structure: %s. *)'%(cite(n),'%s:%d'%sl if sl else '?'))
    out.append('Definition %s : descr :='%n)
    for e,(m,a,l) in zip(IR[n],descrs[n]):
        out.append('  (%-60s (* %s *)'%(em(e),name(m,a).replace('*)','* )')))
    out.append('  DEnd'+')'*len(IR[n])+'.')
roots=DL+RO+UL
for r in roots: emit(r)
out2=['(** sizeof the structures handed to the decoder (LP64 layout of csn1_defs.h). *)']
for r in roots:
    sl=sline(r)
    out2.append('Definition sz_%s : Z := %d.   (* %s *)'%(r,sz(r),'%s:%d'%sl if sl else '?'))
hdrt='''(** The CSN.1 descriptor tables of src/rlcmac/csn1_ts_44_060.c, csn1_ts_44_018.c and csn1_ts_24_008.c, transcribed entry
    by entry by a script that reads those files and lays the structures of include/osmocom/gprs/rlcmac/csn1_defs.h
    out as the LP64 ABI does.  Each line shows the macro it comes from; the numbers after the field widths are the offset of the
    member and the octets from there to the end of that member.  Only tables that the modelled entry points reach. *)
From Coq Require Import ZArith List Bool.
From Verif Require Import Lib.Base Csn1.Csn1Model.
Open Scope Z_scope.

'''
open('/verif/rocq/theories/Csn1/Csn1Tables.v','w').write(hdrt+'\n'.join(out)+'\n\n'+'\n'.join(out2)+'\n')
print(len(done),len(out), UL)
