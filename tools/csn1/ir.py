from gen import *
import re
def room(S,p):
    """offset, bytes to the end of the member's storage, type"""
    m=re.match(r'(.*)\[\s*(\w+)\s*\]$',p)
    if m:
        o,t=member(types[S],m.group(1)); k=ev(m.group(2)); e=size(t[2])[0]
        return o+k*e,size(t)[0]-k*e,t[2]
    o,t=member(types[S],p)
    return o,size(t)[0],t
def foff(S,p):
    return member(types[S],p)[0]
consts['CSN_ERROR_STREAM_NOT_SUPPORTED']='-8'
SER={'Content_Dissector':'Content_t','Additional_access_technologies_Dissector':'Additional_access_technologies_t',
 'Egprs_Ack_Nack_Desc_w_len_Dissector':'EGPRS_AckNack_Desc_t'}
used=set()
ssz={} # descr -> sizeof struct
def sz(T): return size(types[T])[0]
def entry(mac,a):
    S=a[0]
    if mac=='M_BIT': o,r,t=room(S,a[1]); return ('bit',o,r,False)
    if mac=='M_NULL': return ('null',ev(a[2]))
    if mac in('M_UINT','M_UINT_OR_NULL'):
        o,r,t=room(S,a[1]); return ('uint',ev(a[2]),o,r,mac.endswith('NULL'))
    if mac=='M_UINT_OFFSET':
        o,r,t=room(S,a[1]); return ('uintoff',ev(a[2]),o,r,ev(a[3]))
    if mac=='M_UINT_LH':
        o,r,t=room(S,a[1]); return ('uintlh',ev(a[2]),o,r)
    if mac=='M_UINT_ARRAY':
        o,r,t=room(S,a[1]); return ('uintarr',ev(a[2]),ev(a[3]),o,r)
    if mac in('M_TYPE_ARRAY','M_VAR_TARRAY','M_VAR_TARRAY_OFFSET'):
        o,r,t=room(S,a[1]); k={'M_TYPE_ARRAY':'fix','M_VAR_TARRAY':'var','M_VAR_TARRAY_OFFSET':'varoff'}[mac]
        c=ev(a[3]) if k=='fix' else foff(S,a[3])
        return ('tarr',k,c,o,r,sz(a[2]),a[2])
    if mac=='M_BITMAP': o,r,t=room(S,a[1]); return ('bitmap',ev(a[2]),o,r)
    if mac in('M_TYPE','M_TYPE_OR_NULL'):
        o,r,t=room(S,a[1]); return ('type',o,r,mac.endswith('NULL'),a[2])
    if mac=='M_CHOICE':
        o,r,t=room(S,a[1]); return ('choice',o,r,a[2])
    if mac=='M_SERIALIZE':
        o,r,t=room(S,a[1]); return ('ser',ev(a[2]),o,r,SER[a[3]])
    if mac in('M_UNION','M_UNION_LH'):
        o,r,t=room(S,'UnionType'); return ('union',mac.endswith('LH'),ev(a[1]),o,r)
    if mac in('M_THIS_EXIST','M_THIS_EXIST_LH'):
        o,r,t=room(S,'Exist'); return ('exist',mac.endswith('LH'),o,r)
    if mac.startswith('M_NEXT_EXIST'):
        o,r,t=room(S,a[1]); return ('next',mac.endswith('LH'),ev(a[2]),o,r,'OR_NULL' in mac)
    if mac in('M_VAR_BITMAP','M_LEFT_VAR_BMP','M_LEFT_VAR_BMP_1'):
        o,r,t=room(S,a[1]); return ({'M_VAR_BITMAP':'varbmp','M_LEFT_VAR_BMP':'lvarbmp','M_LEFT_VAR_BMP_1':'lvarbmp1'}[mac],ev(a[3]),foff(S,a[2]),o,r)
    if mac=='M_PADDING_BITS': return ('pad',)
    if mac=='M_VAR_ARRAY': o,r,t=room(S,a[1]); return ('vararr',ev(a[3]),foff(S,a[2]),o,r)
    if mac=='M_REC_ARRAY': o,r,t=room(S,a[1]); return ('recarr',ev(a[3]),foff(S,a[2]),o,r)
    if mac in('M_REC_TARRAY','M_REC_TARRAY_1'):
        o,r,t=room(S,a[1]); return ('rectarr',mac.endswith('_1'),foff(S,a[3]),o,r,sz(a[2]),t[1],a[2])
    if mac=='M_FIXED': return ('fixed',ev(a[1]),ev(a[2]))
    if mac=='M_CALLBACK': 
        o1=foff(S,a[2]); o,r,t=room(S,a[3]); return ('cb',a[1],o1,o,r,S,a[3])
    if mac=='CSN_ERROR': return ('trap',ev(a[2]))
    raise Exception(mac)
IR={};CH={}
for n,es in descrs.items():
    IR[n]=[entry(m,a) for m,a,l in es]
for n,es in choices.items():
    CH[n]=[(b,v,k,entry(m,a)) for b,v,k,(m,a,l) in es]
def subs(e):
    if e[0] in('type','ser','tarr','rectarr'): return [e[-1]]
    if e[0]=='choice': return [s for x in CH[e[3]] for s in subs(x[3])]
    return []
def reach(roots):
    seen=[];
    def go(n):
        if n in seen: return
        for e in IR[n]:
            for s in subs(e): go(s)
        seen.append(n)
    for r in roots: go(r)
    return seen
if __name__=='__main__':
    from collections import Counter
    DL=['Packet_Access_Reject_t','Packet_Cell_Change_Order_t','Packet_Cell_Change_Continue_t','Packet_Downlink_Assignment_t','Packet_Measurement_Order_t','Packet_Neighbour_Cell_Data_t','Packet_Serving_Cell_Data_t','Packet_Paging_Request_t','Packet_PDCH_Release_t','Packet_Polling_Request_t','Packet_Power_Control_Timing_Advance_t','Packet_PRACH_Parameters_t','Packet_Queueing_Notification_t','Packet_Timeslot_Reconfigure_t','Packet_TBF_Release_t','Packet_Uplink_Ack_Nack_t','Packet_Uplink_Assignment_t','Packet_Handover_Command_t','Packet_PhysicalInformation_t','Packet_Downlink_Dummy_Control_Block_t','PSI1_t','PSI2_t','PSI3_t','PSI5_t','PSI13_t']
    for d in DL: print(d,len(reach([d])),sum(len(IR[x]) for x in reach([d])))
    print(len(reach(DL)), len(reach(list(IR))))
