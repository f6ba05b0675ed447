.lia.cache
.nia.cache
