-Q theories Verif
theories/Base.v
theories/Ascii_Model.v
theories/Ascii_Spec.v
theories/Ascii_Proofs.v
theories/Ascii_Props.v
theories/Timestamp_Model.v
theories/Timestamp_Spec.v
theories/Timestamp_Proofs.v
theories/Timestamp_Props.v
theories/ListMem.v
theories/Streambuf_Model.v
theories/Streambuf_Spec.v
theories/Streambuf_Proofs.v
theories/Streambuf_Props.v
theories/Table_Model.v
theories/Table_Spec.v
theories/Table_Proofs.v
theories/Table_Props.v
theories/Json_Model.v
theories/Json_Spec.v
theories/Json_Proofs.v
theories/Json_Writer.v
theories/Json_Safety.v
theories/Json_Final.v
theories/Json_Props.v
theories/Http_Model.v
theories/Http_Spec.v
theories/Http_Calls.v
theories/Http_Proofs.v
theories/Http_Writer.v
theories/Http_RoundTrip.v
theories/Http_Order.v
theories/Http_Query.v
theories/Http_Accept.v
theories/Http_Props.v
theories/Equations_Model.v
theories/Equations_Props.v
theories/Ttt_Model.v
theories/Ttt_Spec.v
theories/Ttt_Calls.v
theories/Ttt_Proofs.v
theories/Ttt_Engine.v
theories/Ttt_Seats.v
theories/Ttt_Props.v
theories/Connect4_Model.v
theories/Connect4_Spec.v
theories/Connect4_Calls.v
theories/Connect4_Proofs.v
theories/Connect4_Props.v
theories/Socket_Model.v
theories/Socket_Spec.v
theories/Socket_Proofs.v
theories/Socket_Props.v
theories/Multifile_Model.v
theories/Multifile_Spec.v
theories/Multifile_Proofs.v
theories/Multifile_Props.v
theories/Smbus_Model.v
theories/Smbus_Spec.v
theories/Smbus_Proofs.v
theories/Smbus_Props.v
theories/Shutdown_Model.v
theories/Shutdown_Spec.v
theories/Shutdown_Proofs.v
theories/Shutdown_Props.v
theories/Endpoint_Model.v
theories/Endpoint_Spec.v
theories/Endpoint_Proofs.v
theories/Endpoint_Props.v
theories/Cache_Model.v
theories/Cache_Spec.v
theories/Cache_Proofs.v
theories/Cache_World.v
theories/Cache_Wrap.v
theories/Cache_Props.v
theories/Linked_Model.v
theories/Linked_Spec.v
theories/Linked_Proofs.v
theories/Linked_Runs.v
theories/Linked_Props.v
theories/Cont_Model.v
theories/Cont_Spec.v
theories/Cont_Proofs.v
theories/Cont_Steps.v
theories/Cont_Erase.v
theories/Cont_Runs.v
theories/Cont_Inner.v
theories/Cont_Props.v
theories/Map_Model.v
theories/Map_Spec.v
theories/Map_Proofs.v
theories/Map_Page.v
theories/Map_Props.v
theories/Open_Model.v
theories/Open_Spec.v
theories/Open_Props.v
theories/Vstring_Model.v
theories/Vstring_Spec.v
theories/Vstring_Props.v
theories/Nolog_Model.v
theories/Nolog_Spec.v
theories/Nolog_Props.v
theories/Rest_Model.v
theories/Rest_Spec.v
theories/Rest_Games.v
theories/Rest_Json.v
theories/Rest_Proofs.v
theories/Rest_Replies.v
theories/Rest_Any.v
theories/Rest_Headers.v
theories/RestBody_Spec.v
theories/RestBody_Proofs.v
theories/RestBody_Replies.v
theories/Rest_Props.v
theories/RestReply_Props.v
theories/RestBody_Props.v
theories/Car_Model.v
theories/Car_Spec.v
theories/Car_Proofs.v
theories/Car_Threads.v
theories/Car_Replies.v
theories/Car_Props.v
theories/CarReply_Props.v
theories/Tls_Model.v
theories/Tls_Spec.v
theories/Tls_Proofs.v
theories/Tls_Records.v
theories/Tls_Listen.v
theories/Tls_Props.v
theories/Gpio_Model.v
theories/Gpio_Spec.v
theories/Gpio_Proofs.v
theories/Gpio_Props.v
theories/Emulator_Model.v
theories/Emulator_Spec.v
theories/Emulator_Proofs.v
theories/Emulator_Props.v
theories/Slow4_Model.v
theories/Slow4_Spec.v
theories/Slow4_Proofs.v
theories/Slow4_Props.v
theories/Fast_Model.v
theories/Fast_Spec.v
theories/Fast_Pick.v
theories/Fast_Ttt.v
theories/Fast_C4.v
theories/Fast_Props.v
theories/Scores_Model.v
theories/Scores_Spec.v
theories/Scores_Proofs.v
theories/Scores_Props.v
theories/Range_Model.v
theories/Range_Spec.v
theories/Range_Proofs.v
theories/Range_Props.v
theories/Suite_Model.v
theories/Suite_Spec.v
theories/Suite_Proofs.v
theories/Suite_Props.v
theories/Paths_Model.v
theories/Paths_Spec.v
theories/Paths_Proofs.v
theories/Paths_Props.v
theories/Sensors_Model.v
theories/Sensors_Spec.v
theories/Sensors_Proofs.v
theories/Sensors_Props.v
theories/Ref_Model.v
theories/Ref_Spec.v
theories/Ref_Proofs.v
theories/Ref_Props.v
theories/Alias_Model.v
theories/Alias_Spec.v
theories/Alias_Proofs.v
theories/Alias_Props.v
theories/Track_Model.v
theories/Track_Spec.v
theories/Track_Proofs.v
theories/Track_Props.v
theories/Life_Model.v
theories/Life_Spec.v
theories/Life_Proofs.v
theories/Life_Props.v
theories/Pools_Model.v
theories/Pools_Spec.v
theories/Pools_Proofs.v
theories/Pools_Props.v
theories/Equal_Model.v
theories/Equal_Spec.v
theories/Equal_Proofs.v
theories/Equal_Props.v
theories/Entry_Model.v
theories/Entry_Spec.v
theories/Entry_Proofs.v
theories/Entry_Props.v
theories/Solver_Model.v
theories/Solver_Spec.v
theories/Solver_Proofs.v
theories/Solver_Props.v
theories/Motion_Model.v
theories/Motion_Spec.v
theories/Motion_Proofs.v
theories/Motion_Props.v
