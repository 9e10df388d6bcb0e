.nia.cache
.lia.cache
.csdp.cache
