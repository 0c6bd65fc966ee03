(** What the theorems depend on that are not followed by a [Print Assumptions] in their own file *)
From Verif Require CloneProps FromRound HdrProps HdrSafe MsgProps MsgSyntax PortProps QuoteProps ThreadProps TimedEnd TimedIct TimedIst TimedNict TimedWitness UriProps ViaRound.

Print Assumptions CloneProps.C48_auth_param_refuted.
Print Assumptions CloneProps.C48_empty_body_refuted.
Print Assumptions FromRound.C35_other_scheme.
Print Assumptions FromRound.C35_contact_star.
Print Assumptions FromRound.C35_leading_space_refuted.
Print Assumptions FromRound.C35_semicolon_refuted.
Print Assumptions HdrProps.C40_cseq.
Print Assumptions HdrProps.C40_call_id.
Print Assumptions HdrProps.C40_content_type.
Print Assumptions HdrProps.C40_accept_encoding.
Print Assumptions HdrProps.C40_call_info.
Print Assumptions HdrSafe.C56_generic_params.
Print Assumptions HdrSafe.C56_contact.
Print Assumptions HdrSafe.C56_via_refuted.
Print Assumptions HdrSafe.C56_cseq.
Print Assumptions HdrSafe.C56_call_id.
Print Assumptions HdrSafe.C56_content_length.
Print Assumptions HdrSafe.C56_content_type.
Print Assumptions HdrSafe.C56_accept_encoding.
Print Assumptions HdrSafe.C56_call_info.
Print Assumptions MsgProps.C41_negative_position_ub.
Print Assumptions MsgSyntax.C57_via.
Print Assumptions MsgSyntax.C57_from.
Print Assumptions MsgSyntax.C57_contact.
Print Assumptions MsgSyntax.C57_call_id.
Print Assumptions MsgSyntax.C57_cseq.
Print Assumptions MsgSyntax.C57_content_type.
Print Assumptions MsgSyntax.C57_text.
Print Assumptions MsgSyntax.C57_accept_encoding.
Print Assumptions MsgSyntax.C57_info.
Print Assumptions PortProps.C50_refuted.
Print Assumptions PortProps.C55_partial.
Print Assumptions PortProps.C55_unquoted.
Print Assumptions PortProps.C55_refuted.
Print Assumptions QuoteProps.C30_quote_find.
Print Assumptions QuoteProps.C31_round_trip.
Print Assumptions QuoteProps.C31_dequote_in_bounds.
Print Assumptions QuoteProps.C31_one_quoted_string.
Print Assumptions ThreadProps.C69_free_rule_needed.
Print Assumptions ThreadProps.C69_callback_rule_needed.
Print Assumptions ThreadProps.C69_create_rule_needed.
Print Assumptions ThreadProps.C70_callback_rule_needed.
Print Assumptions TimedEnd.C12_timer_D.
Print Assumptions TimedEnd.C12_timer_D_ends.
Print Assumptions TimedEnd.C14_timer_H.
Print Assumptions TimedEnd.C14_timer_H_ends.
Print Assumptions TimedEnd.C14_timer_I_partial.
Print Assumptions TimedEnd.C14_timer_I_ends.
Print Assumptions TimedEnd.C15_timer_K.
Print Assumptions TimedEnd.C15_timer_K_ends.
Print Assumptions TimedEnd.C16_timer_J.
Print Assumptions TimedEnd.C16_timer_J_ends.
Print Assumptions TimedIct.C12_schedule_partial.
Print Assumptions TimedIct.C12_retransmits.
Print Assumptions TimedIct.C12_times_out.
Print Assumptions TimedIct.C12_timeout_not_before.
Print Assumptions TimedIct.C12_only_before_answer.
Print Assumptions TimedIct.C12_reliable.
Print Assumptions TimedIst.C14_schedule_partial.
Print Assumptions TimedIst.C14_resends.
Print Assumptions TimedIst.C14_until_ack.
Print Assumptions TimedNict.C15_schedule_partial.
Print Assumptions TimedNict.C15_resends.
Print Assumptions TimedNict.C15_only_before_answer.
Print Assumptions TimedNict.C15_timeout_not_before.
Print Assumptions TimedNict.C15_times_out.
Print Assumptions TimedNict.C15_reliable_partial.
Print Assumptions TimedWitness.C12_refuted.
Print Assumptions TimedWitness.C14_refuted.
Print Assumptions TimedWitness.C14_timer_I_refuted.
Print Assumptions TimedWitness.C15_refuted.
Print Assumptions UriProps.C40_uri.
Print Assumptions ViaRound.C34_comment_refuted.
Print Assumptions ViaRound.C36_cseq_round_trip.
Print Assumptions ViaRound.C36_cseq_trailing_refuted.
Print Assumptions ViaRound.C36_call_id_round_trip.
Print Assumptions ViaRound.C36_call_id_match.
Print Assumptions ViaRound.C36_call_id_match_text.
Print Assumptions ViaRound.C38_accept.
Print Assumptions ViaRound.C38_flag_refuted.
Print Assumptions ViaRound.C38_accept_encoding.
Print Assumptions ViaRound.C38_call_info.
