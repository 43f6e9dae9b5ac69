#!/usr/bin/env python3
"""Tidy seeded/LOG.jsonl: drop edits that were not well-typed programs and repeated runs,
and say for each edit no theorem rejected what became of it."""
import json,os
P=os.path.join(os.path.dirname(os.path.abspath(__file__)),'..','seeded','LOG.jsonl')
L=[json.loads(l) for l in open(P)]
TIGHT={ # (definition, text in the edit) -> theorems tightened or added afterwards
 ('show_u8',''):['C64_game_conversion','C65_tracker_conversion'],
 ('show_items',''):['C64_game_conversion','C65_tracker_conversion'],
 ('show_bytes',''):['C64_game_conversion','C65_tracker_conversion'],
 ('default_cmd',''):['C129_order_partial'],
 ('balance_data',''):['C116_built_in'],
 ('write_snapshot','else (Panic, [])'):['C89_no_directory','C89_succeeds'],
 ('p_take',''):['C130_no_crash_partial'],
 ('element_code',''):['C120_generated_refuted'],
 ('missing',''):['C115_absent'],
 ('lossy',''):['C117_repaired'],
 ('iterator_proto','==>  P87702'):['C114_iterators'],
 ('terrain_right_top',''):['C118_corner_partial'],
 ('table_names',''):['C139_module'],
 ('j_Weapon',''):['C143_rules'],
 ('j_UpgradeLevel',''):['C143_rules'],
 ('j_Command',''):['C143_rules'],
 ('components',''):['C94_any_name'],
 ('j_Effect',''):['C143_rules'],
 ('j_Upgrade',''):['C143_rules'],
 ('j_UpgradeLevelRequirement',''):['C143_rules'],
 ('playable_from_terrain',''):['C118_playable_partial','C118_inside'],
}
NOTE={
 ('truncate','firstn'):'no claim is broken: the branch is never taken (C51_limits bounds the list first)',
 ('usize_sub',''):'no claim is broken: the branch is never taken (C51_limits keeps the count above what is used)',
 ('f32_to_i64','S754_nan'):'no claim is broken: the value is never a NaN at any use',
 ('f32_to_i32','infinity'):'no claim is broken: the value is never infinite at any use',
 ('as_i16',''):'no claim is broken: every value it is applied to already fits in 16 bits',
 ('default_player',''):'the definition was not used by anything; removed from the model',
 ('abil_name_of','"?"'):'no claim is broken: a command without an ability gives no rows, so the name is never seen',
 ('targets_of_item',''):'no claim is broken: target_rows_new makes the same check again',
 ('digit_of','55'):'no claim is broken: handles are rendered in lowercase, so the capital branch is never taken',
 ('boundary',''):'no claim is broken: handles are ASCII, so every index is a boundary',
 ('with_pen',''):'no claim is broken: the pen state is never shown',
 ('handle_mouse_event',''):'no claim is broken: the pen state is never shown',
 ('handle_key_press','ap_y a - 2'):'no claim is broken: the place the arrow keys move is never shown',
 ('f32_half',''):'no claim is broken: the sign given to the rounding matters for zero only',
 ('parse_bool','<=? 0'):'no claim is broken: the bit read is never negative',
 ('on_tick',''):'no claim is broken: the tick count is never shown',
 ('gen_blob',''):'no claim is broken: blob fields are outside what the generator gets right (C110_generated_refuted)',
 ('bytes_n',''):'no claim is broken: blob fields are outside what the generator gets right (C110_generated_refuted)',
 ('ygen','0%nat'):'no claim is broken: an untagged field has no wire encoding, outside C120_generated_partial',
 ('get_matching_files','iox'):'only the text of the error changes; no claim is about it',
 ('take_unaligned_byte','Err ENom'):'no claim is broken: the branch is never taken (eight bits never give an empty list)',
 ('write_table','"io"'):'only the text of the error changes; no claim is about it',
 ('omap',''):'no claim is broken: the branch is not used',
 ('iterator_proto','==>  dispatch_tracker '):'no claim is broken: both dispatches choose the same layouts (C15), equivalent program',
 ('speed_from','("EFast", 4)'):'rejected: the proof of the round trip in DetailsFacts does not go through (it runs out of time on the edited table), so C74 and C75 are not accepted',
 ('game_type','bp_GameEEventId'):'rejected: the proof in DispatchFacts does not go through (it runs out of time on the edited table), so the theorems that rest on it are not accepted',
 ('write_json','Panic => (Err ENom'):'no claim is broken: writing one unit never panics, so the branch is never taken',
 ('open_file','iox'):'only the text of the error changes; no claim is about it',
 ('cmd_abil_from','cast as_u16)) "m_abil_cmd_data'):'no claim is broken: the decoded field has 8 bits, so both casts are the identity; equivalent program',
 ('handle_unit_type_change','mk_unit (ut_index e) gl None None (ut_na'):'the two arguments exchanged are the same (None, None); the same program',
 ('handle_unit_type_change','(TUnitTypeChange e, HNone))\n  end.'):'the two arguments exchanged are the same (None, None); the same program',
 ('unit_highlight_from','cast as_u16) "m_flags"'):'no claim is broken: the decoded field has 8 bits, so both casts are the identity; equivalent program',
 ('as_i8','mod 257'):'no claim is broken: every value it is applied to already fits in 8 bits',
 ('in_u16',''):'the definition is used by nothing',
 ('get_sources','iox'):'only the text of the error changes; no claim is about it',
 ('jinsert','Eq =>'):'no claim is broken: the key just found is shadowed either way; equivalent program',
 ('get_matching_files','iox'):'only the text of the error changes; no claim is about it',
 ('take_unaligned_byte','Err ENom'):'no claim is broken: reading eight bits never gives the empty list, so the branch is never taken',
 ('yj_field','InitNone'):'no claim is broken: only OptionalType, taken just before, has mo_opt; equivalent program',
 ('module_code','| d :: _ =>'):'differs only for a name declared twice, which the premise NoDup of C137 excludes; the example open_lacks fails',
 ('handle_unit_type_change','None None (ut_na'):'the two arguments exchanged are the same (None, None); the same program',
 ('max_value_to_bit_size','res - 2'):'no claim is broken: the claims are about inclusive minima; with an exclusive one the generated code is wrong before and after the edit (C113_int_bounds_partial)',
 ('gen_bit_array','<=?'):'no claim is broken: the claims are about bit arrays whose length starts at 0',
 ('shape',''):'only the text of the error changes; no claim is about it',
 ('balance_data','iox'):'only the text of the error changes; no claim is about it',
 ('gen_bit_array','Err ENom'):'no claim is broken: the declaration is refused either way, with a panic or an error',
 ('drop_user_from','as_u16'):'no claim is broken: the decoded field has at most 8 bits, so both casts are the identity; equivalent program',
 ('with_xy',''):'no claim is broken: the position is never shown',
 ('create','iox'):'only the text of the error changes; no claim is about it',
 ('stats_from','4097'):'the proof of stats in ConvertTracker.v no longer ends (stopped after ten minutes), so no theorem after it is proved',
 ('init_from',''):'no claim is broken: set_init_metadata overwrites the field; equivalent program',
}
REDO='missed at first; theorem tightened or added and the edit run again (see a later line)'
out=[];seen={}
for l in L:
    if l['definition']=='f32_045' and l['edit']=='15099494  ==>  15099495': continue  # edited a comment
    if l['note'].startswith('error outside a proof') and not l['theorems_failed']: continue
    if not l['theorems_failed']:
        k=(l['file'],l['definition'],l['edit'])
        if k in seen: continue
        seen[k]=1
        # run again later with success
        later=[x for x in L if (x['file'],x['definition'],x['edit'])==k and x['theorems_failed']]
        if not later or not l['note'] or not l['theorems_tightened']:
            for d in (TIGHT,NOTE):
                for (n,s),v in d.items():
                    if n==l['definition'] and s in l['edit']:
                        if d is TIGHT: l['theorems_tightened']=v; l['note']=REDO if later else 'missed at first; theorem tightened or added'
                        elif not later: l['note']=v
        if later and not l['theorems_tightened']: continue
    out.append(l)
open(P+'.new','w').write(''.join(json.dumps(x)+'\n' for x in out)); os.replace(P+'.new',P)
print(len(L),'->',len(out))
for x in out:
    if not x['theorems_failed'] and not x['theorems_tightened'] and (not x['note'] or x['note'].startswith('stuck') or x['note']=='not covered yet'): print('OPEN',x['file'],x['definition'],x['edit'][:150].replace('\n',' '),x['note'])
