-Q theories Verif
theories/Accept_Model.v
theories/Accept_Proofs.v
theories/Accept_Properties.v
theories/Accept_Spec.v
theories/Append_Model.v
theories/Append_Proofs.v
theories/Append_Properties.v
theories/Append_Spec.v
theories/Assign_Model.v
theories/Assign_Proofs.v
theories/Assign_Properties.v
theories/Assign_Spec.v
theories/Base.v
theories/Calls_Model.v
theories/Calls_Proofs.v
theories/Calls_Properties.v
theories/Calls_Spec.v
theories/Choices_Model.v
theories/Choices_Proofs.v
theories/Choices_Proofs2.v
theories/Choices_Proofs3.v
theories/Choices_Properties.v
theories/Choices_Spec.v
theories/Codec_Float_Proofs.v
theories/Codec_Model.v
theories/Codec_Proofs.v
theories/Codec_Proofs2.v
theories/Codec_Spec.v
theories/Collate_Model.v
theories/Collate_Proofs.v
theories/Collate_Properties.v
theories/Collate_Spec.v
theories/Combined_Model.v
theories/Combined_Proofs.v
theories/Combined_Proofs2.v
theories/Combined_Properties.v
theories/Combined_Spec.v
theories/Config_Len_Proofs.v
theories/Config_Model.v
theories/Config_Proofs.v
theories/Config_Properties.v
theories/Config_Spec.v
theories/Crash_Model.v
theories/Crash_Proofs.v
theories/Crash_Properties.v
theories/Crash_Spec.v
theories/Dataset_Model.v
theories/Dataset_Proofs.v
theories/Dataset_Proofs2.v
theories/Dataset_Proofs3.v
theories/Dataset_Proofs4.v
theories/Dataset_Properties.v
theories/Dataset_Spec.v
theories/Dates_Proofs.v
theories/Dates_Properties.v
theories/Dates_Spec.v
theories/Detect_Model.v
theories/Detect_Proofs.v
theories/Detect_Properties.v
theories/Detect_Spec.v
theories/Dict.v
theories/Disk_Model.v
theories/Disk_Proofs.v
theories/Disk_Properties.v
theories/Disk_Spec.v
theories/Distrib_Model.v
theories/Distrib_Proofs.v
theories/Distrib_Properties.v
theories/Distrib_Spec.v
theories/Encrypt_Model.v
theories/Encrypt_Proofs.v
theories/Encrypt_Spec.v
theories/Epoch_Proofs.v
theories/Fill_Model.v
theories/Fill_Proofs.v
theories/Fill_Properties.v
theories/Fill_Spec.v
theories/Format_Model.v
theories/Format_Proofs.v
theories/Fresh_Model.v
theories/Fresh_Proofs.v
theories/Fresh_Properties.v
theories/Fresh_Spec.v
theories/Inputs_Model.v
theories/Inputs_Proofs.v
theories/Inputs_Properties.v
theories/Inputs_Spec.v
theories/Items_Model.v
theories/Items_Proofs.v
theories/Items_Proofs2.v
theories/Items_Proofs3.v
theories/Items_Properties.v
theories/Items_Spec.v
theories/Iter_Model.v
theories/Iter_Proofs.v
theories/Iter_Properties.v
theories/Iter_Spec.v
theories/Job_Model.v
theories/Job_Properties.v
theories/Job_Spec.v
theories/Keep_Model.v
theories/Keep_Proofs.v
theories/Keep_Proofs2.v
theories/Keep_Properties.v
theories/Keep_Spec.v
theories/Keys_Model.v
theories/Keys_Properties.v
theories/Keys_Spec.v
theories/Loader_Model.v
theories/Loader_Order_Model.v
theories/Loader_Proofs.v
theories/Loader_Properties.v
theories/Loader_Spec.v
theories/Locks_Model.v
theories/Locks_Proofs.v
theories/Locks_Properties.v
theories/Locks_Spec.v
theories/Mds_Model.v
theories/Mds_Proofs.v
theories/Mds_Properties.v
theories/Mds_Spec.v
theories/Merge_Model.v
theories/Merge_Proofs.v
theories/Merge_Properties.v
theories/Merge_Spec.v
theories/Mixed_Model.v
theories/Mixed_Proofs.v
theories/Mixed_Proofs2.v
theories/Mixed_Proofs3.v
theories/Mixed_Proofs4.v
theories/Mixed_Properties.v
theories/Mixed_Spec.v
theories/Names_Model.v
theories/Names_Proofs.v
theories/Names_Properties.v
theories/Names_Spec.v
theories/Nodes_Model.v
theories/Nodes_Proofs.v
theories/Nodes_Properties.v
theories/Nodes_Spec.v
theories/Object_Model.v
theories/Object_Proofs.v
theories/Object_Proofs2.v
theories/Object_Properties.v
theories/Object_Spec.v
theories/Optimize_Model.v
theories/Optimize_Proofs.v
theories/Optimize_Proofs2.v
theories/Optimize_Properties.v
theories/Optimize_Spec.v
theories/Output_Model.v
theories/Output_Proofs.v
theories/Output_Properties.v
theories/Output_Spec.v
theories/Parquet_Model.v
theories/Parquet_Proofs.v
theories/Parquet_Properties.v
theories/Parquet_Spec.v
theories/Passes_Model.v
theories/Passes_Proofs.v
theories/Passes_Properties.v
theories/Passes_Spec.v
theories/Paths_Model.v
theories/Paths_Proofs.v
theories/Paths_Properties.v
theories/Paths_Spec.v
theories/Platform_Model.v
theories/Platform_Proofs.v
theories/Platform_Properties.v
theories/Platform_Spec.v
theories/Prefetch_Model.v
theories/Prefetch_Proofs.v
theories/Prefetch_Proofs2.v
theories/Prefetch_Properties.v
theories/Prefetch_Spec.v
theories/Profile_Model.v
theories/Profile_Proofs.v
theories/Profile_Properties.v
theories/Profile_Spec.v
theories/Read_Model.v
theories/Read_Proofs.v
theories/Read_Proofs2.v
theories/Read_Properties.v
theories/Read_Spec.v
theories/Readers_Model.v
theories/Readers_Proofs.v
theories/Readers_Properties.v
theories/Register_Model.v
theories/Register_Properties.v
theories/Remote_Model.v
theories/Remote_Proofs.v
theories/Remote_Properties.v
theories/Remote_Spec.v
theories/Restart_Model.v
theories/Restart_Proofs.v
theories/Restart_Properties.v
theories/Restart_Spec.v
theories/Resume_Proofs.v
theories/Sample_Model.v
theories/Sample_Proofs.v
theories/Sample_Properties.v
theories/Sample_Spec.v
theories/Sampler_Model.v
theories/Sampler_Proofs.v
theories/Sampler_Proofs2.v
theories/Sampler_Properties.v
theories/Sampler_Spec.v
theories/Share_Model.v
theories/Share_Proofs.v
theories/Share_Properties.v
theories/Shuffle_Proofs.v
theories/Size_Model.v
theories/Size_Proofs.v
theories/Skip_Model.v
theories/Skip_Proofs.v
theories/Skip_Proofs2.v
theories/Skip_Proofs3.v
theories/Skip_Proofs4.v
theories/Skip_Proofs5.v
theories/Skip_Proofs6.v
theories/Skip_Properties.v
theories/Skip_Spec.v
theories/Stops_Model.v
theories/Stops_Proofs.v
theories/Stops_Proofs2.v
theories/Stops_Proofs3.v
theories/Stops_Properties.v
theories/Stops_Spec.v
theories/Subsample_Model.v
theories/Subsample_Proofs.v
theories/Subsample_Properties.v
theories/Tokens_Model.v
theories/Tokens_Proofs.v
theories/Tokens_Proofs2.v
theories/Tokens_Properties.v
theories/Tokens_Spec.v
theories/Tree_Model.v
theories/Tree_Proofs.v
theories/Tree_Spec.v
theories/Unzip_Model.v
theories/Unzip_Proofs.v
theories/Unzip_Proofs2.v
theories/Unzip_Properties.v
theories/Unzip_Spec.v
theories/Validate_Model.v
theories/Validate_Proofs.v
theories/Validate_Spec.v
theories/Version_Model.v
theories/Version_Proofs.v
theories/Version_Properties.v
theories/Version_Spec.v
theories/Walk_Model.v
theories/Walk_Proofs.v
theories/Walk_Properties.v
theories/Walk_Spec.v
theories/Worker_Model.v
theories/Worker_Proofs.v
theories/Worker_Properties.v
theories/Writer_Model.v
theories/Writer_Proofs.v
theories/Writer_Proofs2.v
theories/Writer_Proofs3.v
theories/Writer_Properties.v
theories/Writer_Spec.v
